(** * P_cmd: property C90 — from the bytes of a file to what grater prints and grate2tsv writes. *)
From Coq Require Import Permutation.
From Verif Require Import M_tsv P_tsv GoBase GoFloat GoUnicode GoTime M_grate M_value M_dates M_fmt M_formats M_cell M_sheet M_simple M_biff M_xls M_xlsx M_open M_cmd
  S_cell S_sheet S_grid S_formats S_display S_text L_base L_sheet L_ffun L_grid L_xlsbook P_formats P_display S_simple S_grate S_cfb L_xlsxpkg M_crypto S_crypto M_hlink S_biff S_xls S_xlsx S_open P_crypto P_biff P_xls P_xlsx P_open P_enc.
Lemma fx_apply_0 : forall x v, fx_apply x 0 v = Ok (ident_text v, true).
Proof. reflexivity. Qed.
Local Opaque fx_apply.

(** ** the strings of a sheet whose cells are known *)
Lemma fill_change : forall A B C (f : A -> res B) (g : A -> res C) (h : A -> C) n l i out, fill_row f n i l = Ok out -> (forall a, In a l -> g a = Ok (h a)) -> fill_row g n i l = Ok (map h l).
Proof.
  induction l as [|a l IH]; intros i out E H; [reflexivity|]. cbn [fill_row] in *. rewrite (H a) by (left; reflexivity). destruct (f a) as [b| | |]; try discriminate. cbn [bind] in *.
  destruct (n <=? i); [discriminate|]. destruct (fill_row f n (i + 1) l) as [r| | |] eqn:R; try discriminate. rewrite (IH _ _ R) by (intros; apply H; right; assumption). reflexivity.
Qed.
Lemma fill_id : forall n l i out, fill_row (fun c => Ok (cell_clone c)) n i l = Ok out -> out = l.
Proof.
  induction l as [|a l IH]; intros i out E; cbn [fill_row bind] in E; [congruence|]. destruct (n <=? i); [discriminate|]. destruct (fill_row _ n (i + 1) l) as [r| | |] eqn:R; try discriminate.
  cbn [bind] in E. rewrite (IH _ _ R) in E. unfold cell_clone in E. rewrite map_id in E. congruence.
Qed.
Definition text_of (x : formatter) (cl : list goval) : gostr := match cell_string x cl with Ok t => t | _ => [] end.
Lemma repeat_text : forall x n, map (text_of x) (repeat [] n) = repeat [] n.
Proof. intros x n. induction n as [|n IH]; [reflexivity|]. cbn [repeat map]. rewrite IH. reflexivity. Qed.
Lemma raw_strings : forall s row, raw s = Ok row -> (forall cl, In cl row -> exists t, cell_string (sh_fx s) cl = Ok t) -> strings s = Ok (map (text_of (sh_fx s)) row).
Proof.
  intros s row E H. unfold raw, strings, row_map in *. destruct (idx (sh_rows s) (sh_cur s - 1)) as [r| | |]; try discriminate. cbn [bind] in *.
  destruct (fill_row _ (sh_ncols s) 0 r) as [l| | |] eqn:F in E; try discriminate. cbn [bind] in E. pose proof (fill_id _ _ _ _ F) as ->. injection E as <-.
  rewrite (fill_change _ _ _ _ (cell_string (sh_fx s)) (text_of (sh_fx s)) _ _ _ _ F). { cbn [bind]. rewrite map_app, repeat_text. unfold zlen. rewrite map_length. reflexivity. }
  intros cl Hc. destruct (H cl) as (t & Et); [apply in_or_app; left; exact Hc|]. unfold text_of. rewrite Et. reflexivity.
Qed.
Lemma next_fx : forall s b s', next s = (b, s') -> sh_fx s' = sh_fx s /\ sh_rows s' = sh_rows s /\ (b = true -> sh_cur s' = sh_cur s + 1 /\ sh_cur s < zlen (sh_rows s)).
Proof. intros s b s' H. unfold next in H. destruct (Z.ltb_spec (zlen (sh_rows s)) (sh_cur s + 1)) as [L|L]; injection H as <- <-; cbn; repeat split; auto; try discriminate; lia. Qed.
Lemma delivers_strings : forall s grid, delivers raw s grid -> (forall row cl, In row grid -> In cl row -> exists t, cell_string (sh_fx s) cl = Ok t) ->
  delivers strings s (map (map (text_of (sh_fx s))) grid).
Proof.
  intros s grid D. induction D as [s s' N|s s' a l N O D IH]; intros H; [econstructor; eauto|]. destruct (next_fx _ _ _ N) as (F & _). cbn [map]. rewrite <- F in *.
  econstructor; [exact N| |apply IH; intros; eapply H; [right|]; eassumption]. apply raw_strings; [exact O|]. intros cl Hc. apply (H a); [left; reflexivity|exact Hc].
Qed.
Lemma delivers_len : forall s l, delivers strings s l -> l = [] \/ 0 <= sh_cur s /\ zlen l + sh_cur s <= zlen (sh_rows s).
Proof.
  intros s l D. induction D as [s s' N|s s' a l N O D IH]; [left; reflexivity|right]. destruct (next_fx _ _ _ N) as (_ & F & G). destruct (G eq_refl) as (G1 & G2).
  assert (0 <= sh_cur s). { unfold strings, row_map in O. destruct (idx (sh_rows s') (sh_cur s' - 1)) as [r| | |] eqn:I; try discriminate. destruct (idx_inv _ _ _ _ I). lia. }
  rewrite zlen_cons. destruct IH as [->|(IH1 & IH2)]; [rewrite zlen_nil|rewrite F in IH2]; lia.
Qed.
Lemma read_rows_ok : forall s l, delivers strings s l -> forall fuel, (List.length l < fuel)%nat -> read_rows fuel s = Ok l.
Proof.
  intros s l D. induction D as [s s' N|s s' a l N O D IH]; intros [|fuel] L; try (cbn in L; lia); cbn [read_rows]; rewrite N; [reflexivity|]. rewrite O. cbn [bind]. rewrite IH by (cbn in L; lia). reflexivity.
Qed.
Lemma read_sheet_ok : forall s l, delivers strings s l -> read_sheet s = Ok (M_tsv.mkSheet (is_empty s) l).
Proof.
  intros s l D. unfold read_sheet. rewrite (read_rows_ok _ _ D); [reflexivity|]. destruct (delivers_len _ _ D) as [->|(A & B)]; [cbn; lia|unfold zlen in *; lia].
Qed.

(** the text of a written cell *)
Lemma written_text : forall x w cl, reach_fx x -> write_known x w -> wrote x w cl -> exists t, cell_string x cl = Ok t /\ write_text x w t.
Proof.
  intros x w cl Hx K W. destruct w as [v f|s f|s]; cbn [write_known wrote write_text] in *.
  - destruct K as [Kf K]. destruct (views_of x v f cl Hx K Kf W) as (t & ty & code & E & _ & _ & V). eauto.
  - destruct K as (Kf & K & N). subst cl.
    assert (A : exists t, fx_apply x f (GStr s) = Ok (t, true)).
    { destruct N as [N|N]; [apply fx_apply_safe; auto; apply printable_basic; exact N|subst f; rewrite fx_apply_0; eauto]. }
    destruct A as (t & A). exists t. split; [|exact A]. unfold cell_string.
    assert (T : M_cell.cell_type ([GStr s; GCType StringCell] ++ (if f =? 0 then [] else [GInt KUint16 f])) = Ok StringCell) by (destruct (f =? 0); reflexivity).
    assert (F : format_no ([GStr s; GCType StringCell] ++ (if f =? 0 then [] else [GInt KUint16 f])) = Ok f) by (destruct (Z.eqb_spec f 0); [subst|]; reflexivity).
    rewrite T. cbn [bind]. rewrite F. cbn [bind app M_cell.cell_value]. rewrite A. reflexivity.
  - subst cl. exists (match s with [] => bs "<nil>" | _ => s end). split; [|reflexivity]. unfold cell_string. cbn [format_no idx zlen List.length Z.of_nat Pos.of_succ_nat Pos.succ Z.ltb Z.leb Z.compare Pos.compare Pos.compare_cont Z.eqb Pos.eqb Z.to_nat Pos.to_nat nth_error bind M_cell.cell_value].
    replace (M_cell.cell_type _) with (Ok HyperlinkStringCell) by (destruct s; reflexivity). cbn [bind]. replace (format_no _) with (Ok 0) by (destruct s; reflexivity). cbn [bind]. rewrite fx_apply_0. destruct s; reflexivity.
Qed.
Lemma displays_text : forall x ws rows cols s, reach_fx x -> Forall (fun o : gop => write_known x (snd o)) ws -> displays x ws rows cols s ->
  exists ts, read_sheet s = Ok (M_tsv.mkSheet (single_cell ws rows cols) ts) /\ text_rows x ws rows cols ts.
Proof.
  intros x ws rows cols s Hx K (F & E & grid & D & G1 & G2 & G3). subst x.
  assert (C : forall r c row cl, nth_error grid r = Some row -> nth_error row c = Some cl -> exists t, cell_string (sh_fx s) cl = Ok t /\ match last_write ws (Z.of_nat r) (Z.of_nat c) with Some w => write_text (sh_fx s) w t | None => t = [] end).
  { intros r c row cl N1 N2. specialize (G1 r c row cl N1 N2). destruct (last_write ws (Z.of_nat r) (Z.of_nat c)) as [w|] eqn:L; [|subst cl; exists []; split; reflexivity].
    apply written_text; auto. apply last_write_In in L. rewrite Forall_forall in K. exact (K _ L). }
  exists (map (map (text_of (sh_fx s))) grid). split.
  - unfold single_cell. rewrite <- E. apply read_sheet_ok, delivers_strings; [exact D|]. intros row cl Hr Hc. apply In_nth_error in Hr, Hc. destruct Hr as (r & Hr), Hc as (c & Hc). destruct (C _ _ _ _ Hr Hc) as (t & Et & _). eauto.
  - assert (A : forall r c, at2 (map (map (text_of (sh_fx s))) grid) r c = option_map (text_of (sh_fx s)) (at2 grid r c)).
    { intros r c. unfold at2. rewrite nth_error_map. destruct (nth_error grid r); [|reflexivity]. apply nth_error_map. }
    split; [|split].
    + intros r c t Ht. rewrite A in Ht. unfold at2 in Ht. destruct (nth_error grid r) as [row|] eqn:N1; [|discriminate]. destruct (nth_error row c) as [cl|] eqn:N2; [|discriminate]. cbn in Ht. injection Ht as <-.
      destruct (C _ _ _ _ N1 N2) as (t & Et & H). unfold text_of. rewrite Et. exact H.
    + intros r c H. destruct (G2 r c (or_introl H)) as (row & cl & N1 & N2). rewrite A. unfold at2. rewrite N1, N2. eexists. reflexivity.
    + destruct G3 as [(W & R & Q & ->)|(L & F)]; [left; auto|right]. split; [unfold zlen in *; rewrite map_length; exact L|]. apply Forall_forall. intros row Hr. apply in_map_iff in Hr. destruct Hr as (row0 & <- & Hr). rewrite Forall_forall in F. unfold zlen. rewrite map_length. apply (F _ Hr).
Qed.

(** ** sources as the commands see them *)
(** [s] lists the tables [ts], and each is what its Get and reading it give *)
Definition holds_tables (s : source) (ts : list table) : Prop :=
  src_list s = map tb_name ts /\ Forall (fun t => snd (src_get s (tb_name t)) = Ok (M_tsv.mkSheet (tb_single t) (tb_rows t))) ts.
(** grater prints every row, cells separated by tabs *)
Definition printed_table (t : table) : list printed := map (fun row => POut (join [9] row ++ [10])) (tb_rows t).
(** grate2tsv writes the non-blank rows with white space normalized, to a file of its own; a
    table of a single cell is skipped *)
Definition written_table (md5hex : gostr -> gostr) (fl : flags) (fn : gostr) (t : table) : list tsvout :=
  if tb_single t then [] else [mkOut (out_path md5hex fn (tb_name t)) (flat_map (fun row => join [9] row ++ [10]) (kept fl (tb_rows t)))].
Definition reported_table (fl : flags) (fn : gostr) (t : table) (st : stats) : Prop :=
  ps_file st = fn /\ ps_sheet st = tb_name t /\ ps_err st = None /\ ps_rows st = if tb_single t then 0 else zlen (kept fl (tb_rows t)).
(** the commands run on one file *)
Definition commands_give (openf : gostr -> res source) (fn : gostr) (ts : list table) : Prop :=
  grater_files (fun fn => open_book (openf fn)) [fn] = Ok (flat_map printed_table ts) /\
  forall md5hex fl, fl_pretend fl = false -> exists rs,
    process_file md5hex (fun _ => None) fl (fun fn => open_book (openf fn)) fn = (flat_map (written_table md5hex fl fn) ts, Ok rs) /\ Forall2 (reported_table fl fn) ts rs.

Lemma tables_safe : forall s ts, holds_tables s ts -> Forall (fun n => M_tsv.wb_get (src_book s) n <> Panic /\ M_tsv.wb_get (src_book s) n <> NoFuel) (map tb_name ts).
Proof. intros s ts (_ & F). induction F as [|t ts E F IH]; constructor; auto. cbn [src_book M_tsv.wb_get]. rewrite E. split; discriminate. Qed.
Theorem C90_printed : forall openf fns tss, Forall2 (fun fn ts => exists s, openf fn = Ok s /\ holds_tables s ts) fns tss ->
  grater_files (fun fn => open_book (openf fn)) fns = Ok (flat_map (flat_map printed_table) tss).
Proof.
  intros openf fns tss F. rewrite C72_grater.
  - f_equal. induction F as [|fn ts fns tss (s & E & H) F IH]; [reflexivity|]. cbn [flat_map]. rewrite IH. f_equal. unfold file_printed. rewrite E. cbn [open_book src_book M_tsv.wb_list M_tsv.wb_get].
    destruct H as (L & H). rewrite L. clear -H. induction H as [|t ts E F IH]; [reflexivity|]. cbn [map flat_map]. rewrite E, IH. reflexivity.
  - induction F as [|fn ts fns tss (s & E & H) F IH]; constructor; auto. unfold never_panics. rewrite E. cbn [open_book]. cbn [src_book M_tsv.wb_list]. rewrite (proj1 H). apply (tables_safe s ts H).
Qed.
Theorem C90_commands : forall openf fn s ts, openf fn = Ok s -> holds_tables s ts -> commands_give openf fn ts.
Proof.
  intros openf fn s ts E H. split; [rewrite (C90_printed openf [fn] [ts]); [cbn [flat_map]; rewrite app_nil_r; reflexivity|repeat constructor; eauto]|]. intros md5hex fl P.
  destruct (C66_files md5hex fl (fun fn => open_book (openf fn)) fn (src_book s) (map tb_name ts) P) as (rs & A & B).
  - rewrite E. reflexivity.
  - cbn [src_book M_tsv.wb_list]. rewrite (proj1 H). reflexivity.
  - apply tables_safe. exact H.
  - exists rs. rewrite A. destruct H as (_ & H). clear -H B. split.
    + f_equal. clear B. induction H as [|t ts E F IH]; [reflexivity|]. cbn [map flat_map]. rewrite IH. f_equal. unfold sheet_out, written_table. cbn [src_book M_tsv.wb_get]. rewrite E. reflexivity.
    + revert rs B. induction H as [|t ts E F IH]; intros rs B; cbn [map] in B; inversion B as [|? st ? rs' R B']; subst; constructor; auto.
      unfold sheet_stat in R. cbn [src_book M_tsv.wb_get] in R. rewrite E in R. cbn [sh_empty M_tsv.sh_rows] in R. unfold reported_table. tauto.
Qed.

(** getting one sheet leaves the others as they are *)
Lemma get_local : forall fn o l b, map xh_name l = map xh_name (xd_sheets (xo_doc o)) -> (forall k a, find_sheet (xd_sheets (xo_doc o)) b 0 = Some (k, a) -> nth_error l k = Some a) ->
  snd (src_get (SrcXlsx fn (mkXO (with_sheets (xo_doc o) l) (xo_closed o))) b) = snd (src_get (SrcXlsx fn o) b).
Proof.
  intros fn o l b E H. cbn [src_get]. unfold doc_get. cbn [xo_closed xo_doc with_sheets xd_sheets]. destruct (xo_closed o) eqn:CL; [reflexivity|].
  destruct (find_same (xd_sheets (xo_doc o)) l b 0%nat E) as [(-> & ->)|(k & a & b' & F1 & F2 & N1 & N2)]; [reflexivity|]. rewrite F1, F2. cbn [Nat.add] in *. specialize (H _ _ F1). assert (b' = a) by congruence. subst b'.
  assert (L1 : (k < List.length (xd_sheets (xo_doc o)))%nat) by (apply nth_error_Some; congruence). assert (L2 : (k < List.length l)%nat) by (apply nth_error_Some; congruence).
  destruct (xh_err a) as [[e|]|].
  - reflexivity.
  - unfold coll, set_coll. cbn [xo_doc with_sheets xd_sheets]. rewrite N1, N2. destruct (xh_wrapped a); reflexivity.
  - fold (with_sheets (xo_doc o) l). rewrite parse_ws. destruct (parse_xsheet (xo_doc o) (xh_doc a)) as [[sh e]| | |]; cbn [bind]; [|reflexivity|reflexivity|reflexivity]. destruct e as [e|]; [reflexivity|].
    unfold coll. cbn [xo_doc with_sheets xd_sheets]. rewrite !nth_set_nth by assumption. reflexivity.
Qed.
Lemma set_nth_names : forall l i s a, nth_error l i = Some a -> xh_name s = xh_name a -> map xh_name (set_nth l i s) = map xh_name l.
Proof.
  induction l as [|x l IH]; intros i s a N E; [destruct i; discriminate|]. unfold set_nth. destruct i as [|i]; cbn [firstn skipn app map nth_error] in *; [injection N as ->; rewrite E; reflexivity|]. f_equal. apply (IH _ _ _ N E).
Qed.
Lemma find_named : forall l name i k a, find_sheet l name i = Some (k, a) -> (i <= k)%nat /\ nth_error l (k - i) = Some a /\ xh_name a = name.
Proof.
  induction l as [|x l IH]; intros name i k a H; [discriminate|]. cbn [find_sheet] in H. destruct (str_eqb (xh_name x) name) eqn:E.
  - injection H as <- <-. apply str_eqb_eq in E. rewrite Nat.sub_diag. auto.
  - apply IH in H. destruct H as (L & N & E2). split; [lia|]. split; [|exact E2]. replace (k - i)%nat with (S (k - S i)) by lia. exact N.
Qed.
Theorem C90_independent : forall s a b, a <> b -> match s with SrcSimple _ => False | _ => True end ->
  src_list (fst (src_get s a)) = src_list s /\ snd (src_get (fst (src_get s a)) b) = snd (src_get s b).
Proof.
  intros s a b N K. destruct s as [w|fn o|t]; [split; reflexivity| |contradiction]. clear K.
  assert (G : forall i x s', find_sheet (xd_sheets (xo_doc o)) a 0 = Some (i, x) -> xh_name s' = xh_name x ->
    let o' := mkXO (with_sheets (xo_doc o) (set_nth (xd_sheets (xo_doc o)) i s')) (xo_closed o) in
    src_list (SrcXlsx fn o') = src_list (SrcXlsx fn o) /\ snd (src_get (SrcXlsx fn o') b) = snd (src_get (SrcXlsx fn o) b)).
  { intros i x s' F E o'. apply find_named in F. rewrite Nat.sub_0_r in F. destruct F as (_ & F & Ex). assert (LI : (i < List.length (xd_sheets (xo_doc o)))%nat) by (apply nth_error_Some; congruence). split.
    - cbn [src_list]. unfold doc_list. cbn [o' xo_closed xo_doc with_sheets xd_sheets]. rewrite (set_nth_names _ _ _ _ F E). reflexivity.
    - apply get_local; [apply (set_nth_names _ _ _ _ F E)|]. intros k y Fk. apply find_named in Fk. rewrite Nat.sub_0_r in Fk. destruct Fk as (_ & Fk & Ey). rewrite nth_set_other; [exact Fk| |exact LI]. intros ->. congruence. }
  assert (Q : fst (src_get (SrcXlsx fn o) a) = SrcXlsx fn o \/ exists i x s', find_sheet (xd_sheets (xo_doc o)) a 0 = Some (i, x) /\ xh_name s' = xh_name x /\
    fst (src_get (SrcXlsx fn o) a) = SrcXlsx fn (mkXO (with_sheets (xo_doc o) (set_nth (xd_sheets (xo_doc o)) i s')) (xo_closed o))).
  { clear G. cbn [src_get]. unfold doc_get. destruct (xo_closed o) eqn:CL; [left; reflexivity|]. destruct (find_sheet (xd_sheets (xo_doc o)) a 0) as [[i x]|] eqn:F; [|left; reflexivity].
    pose proof (find_named _ _ _ _ _ F) as (_ & FN & _). rewrite Nat.sub_0_r in FN. assert (LI : (i < List.length (xd_sheets (xo_doc o)))%nat) by (apply nth_error_Some; congruence).
    destruct (xh_err x) as [[e|]|]; [left; reflexivity| |].
    - unfold coll, set_coll. rewrite FN. destruct (xh_wrapped x) as [sh|]; [|left; reflexivity]. right. exists i, x. eexists. split; [reflexivity|]. cbn [fst]. rewrite CL. split; [|reflexivity]. reflexivity.
    - destruct (parse_xsheet (xo_doc o) (xh_doc x)) as [[sh e]| | |]; cbn [bind]; [|left; reflexivity|left; reflexivity|left; reflexivity]. right. exists i, x. destruct e as [e|]; cbn [fst].
      + eexists. split; [reflexivity|]. split; [|reflexivity]. reflexivity.
      + unfold coll, set_coll. cbn [xo_doc with_sheets xd_sheets xo_closed]. rewrite nth_set_nth by exact LI. cbn [xh_wrapped xh_rel xh_name xh_doc xh_err fst].
        assert (SS : forall A (l : list A) i x y, (i < List.length l)%nat -> set_nth (set_nth l i x) i y = set_nth l i y).
        { clear. intros A l i x y L. unfold set_nth. rewrite firstn_app, firstn_firstn, Nat.min_id, firstn_length_le, Nat.sub_diag by lia. cbn [firstn]. rewrite app_nil_r. f_equal. f_equal.
          rewrite skipn_app, firstn_length_le by lia. rewrite (skipn_all2 (firstn i l)) by (rewrite firstn_length_le; lia). replace (S i - i)%nat with 1%nat by lia. reflexivity. }
        unfold with_sheets at 1. cbn [xd_zip xd_primary xd_rels xd_strings xd_xfs xd_fmt]. rewrite SS by exact LI. eexists. split; [reflexivity|]. split; [|reflexivity]. reflexivity. }
  destruct Q as [->|(i & x & s' & F & E & ->)]; [split; reflexivity|]. exact (G i x s' F E).
Qed.

(** ** from the bytes of a file to the output *)
(** the table of a sheet with these writes *)
Definition table_shows (x : formatter) (name : gostr) (ws : list gop) (rows cols : Z) (t : table) : Prop :=
  tb_name t = name /\ tb_single t = single_cell ws rows cols /\ text_rows x ws rows cols (tb_rows t).

(** a sheet entry of an XLS workbook with the substream it points to *)
Definition xls_at (G : list grec) (gs : list (list frec)) (e : Z * Z * Z * gostr) (sh : xsheet) : Prop :=
  exists n, fst (fst (fst e)) = offset gs n /\ nth_error gs n = Some (xs_recs sh) /\ xs_ok (zlen (book_strings G)) sh /\
    Forall (fun o : gop => write_known (book_formats G) (snd o)) (xs_writes go_trim (book_strings G) (g_xfs G) sh).
Definition xls_shows (G : list grec) (e : (Z * Z * Z * gostr) * xsheet) (t : table) : Prop :=
  table_shows (book_formats G) (sheet_name (fst e)) (xs_writes go_trim (book_strings G) (g_xfs G) (snd e)) (xs_rows (snd e)) (xs_cols (snd e)) t.
Lemma split_first : forall A (f : A -> gostr) l e, NoDup (map f l) -> In e l -> exists a c, l = a ++ e :: c /\ ~ In (f e) (map f a).
Proof.
  intros A f l e N I. apply in_split in I. destruct I as (a & c & ->). exists a, c. split; [reflexivity|]. rewrite map_app in N. cbn [map] in N. apply NoDup_remove_2 in N. intros J. apply N, in_or_app. auto.
Qed.
Lemma xls_tables : forall b G gs es, serves b G gs -> NoDup (map sheet_name (g_sheets G)) -> map fst es = filter S_xls.shown (g_sheets G) -> Forall (fun e => xls_at G gs (fst e) (snd e)) es ->
  exists ts, holds_tables (SrcXls b) ts /\ Forall2 (xls_shows G) es ts.
Proof.
  intros b G gs es (L & _ & S & _) N E F.
  assert (K : forall l, incl l es -> exists ts, Forall (fun t => snd (src_get (SrcXls b) (tb_name t)) = Ok (M_tsv.mkSheet (tb_single t) (tb_rows t))) ts /\ Forall2 (xls_shows G) l ts).
  { induction l as [|e l IH]; intros I; [exists []; split; constructor|]. destruct IH as (ts & T1 & T2); [intros y Hy; apply I; right; exact Hy|].
    assert (Ie : In e es) by (apply I; left; reflexivity). rewrite Forall_forall in F. destruct (F e Ie) as (n & O1 & O2 & O3 & O4).
    assert (Ig : In (fst e) (g_sheets G)). { assert (J : In (fst e) (filter S_xls.shown (g_sheets G))) by (rewrite <- E; apply in_map; exact Ie). apply filter_In in J. apply J. }
    destruct (split_first _ sheet_name _ _ N Ig) as (a & c & EG & NI). destruct e as [[[[pos h] ty] name] sh]. cbn [fst snd sheet_name] in *. change (sheet_name (pos, h, ty, name)) with name in NI.
    destruct (S a pos h ty name c n sh EG NI O1 O2 O3) as (s & G1 & D). destruct (displays_text _ _ _ _ _ (reach_formats (g_formats G) new_formatter rf_new) O4 D) as (rows & R1 & R2).
    exists (mkTable name (single_cell (xs_writes go_trim (book_strings G) (g_xfs G) sh) (xs_rows sh) (xs_cols sh)) rows :: ts). split; constructor; auto.
    - cbn [src_get snd tb_name tb_single tb_rows]. rewrite G1. cbn [bind]. exact R1.
    - split; [reflexivity|]. split; [reflexivity|exact R2]. }
  destruct (K es (incl_refl _)) as (ts & T1 & T2). exists ts. split; [|exact T2]. split; [|exact T1]. cbn [src_list]. rewrite L, <- E, map_map. clear -T2. induction T2 as [|e t es ts (H & _) F IH]; [reflexivity|]. cbn [map]. rewrite <- H, IH. reflexivity.
Qed.

(** An XLS file: the visible sheets, in order, with the texts of their cells. *)
Theorem C90_xls_file : forall sizes sp1 sp2 sp3 unzip order iter rd srt fn w data p G q rest tail es,
  (forall i, 0 < sizes i) -> sorts_by_priority srt ->
  bof_ok p -> Forall grec_ok G -> Forall (Forall local_rec) rest -> Forall group rest ->
  let gs := globals_recs p G q :: rest in
  Forall (Forall (rec_fits 65531)) gs -> zlen tail < 4 ->
  os_file w fn = FileData data None -> stores data (bs "Workbook") (stream (concat gs) ++ tail) ->
  NoDup (map sheet_name (g_sheets G)) -> map fst es = filter S_xls.shown (g_sheets G) -> Forall (fun e => xls_at G gs (fst e) (snd e)) es ->
  exists N ts, Forall2 (xls_shows G) es ts /\
    forall fuel hist, (N <= fuel)%nat -> Permutation hist (stock fuel sizes sp1 sp2 sp3 unzip order iter rd) ->
      commands_give (fun fn => fst (open_file (registered srt hist) fn w)) fn ts.
Proof.
  intros sizes sp1 sp2 sp3 unzip order iter rd srt fn w data p G q rest tail es HZ HS B FG FL GR gs FF HT HW ST ND E F.
  destruct (C74_xls_file sizes sp1 sp2 sp3 unzip order iter rd srt fn w data p G q rest tail HZ HS B FG FL GR FF HT HW ST) as (N & b & O & S).
  destruct (xls_tables b G gs es S ND E F) as (ts & T1 & T2). exists N, ts. split; [exact T2|]. intros fuel hist Fu HP. apply (C90_commands _ _ (SrcXls b)); [|exact T1]. rewrite (O fuel hist Fu HP). reflexivity.
Qed.
(** ... and one encrypted with RC4 under the default password. *)
Theorem C90_encrypted_file : forall sizes sp1 sp2 sp3 unzip order iter rd srt fn w data p G1 salt verifier G2 q rest es,
  (forall i, 0 < sizes i) -> sorts_by_priority srt ->
  bytes_ok salt -> zlen salt = 16 -> zlen verifier = 16 ->
  bof_ok p -> Forall grec_ok (G1 ++ G2) -> Forall (Forall local_rec) rest -> Forall group rest ->
  let gs := sealed_globals p G1 (rc4_filepass salt verifier) G2 q :: rest in
  Forall (Forall (rec_fits 65531)) gs -> Forall (Forall encryptable) gs ->
  os_file w fn = FileData data None -> stores data (bs "Workbook") (stream (enc_recs (base_key default_password salt) 0 (concat gs))) ->
  NoDup (map sheet_name (g_sheets (G1 ++ G2))) -> map fst es = filter S_xls.shown (g_sheets (G1 ++ G2)) -> Forall (fun e => xls_at (G1 ++ G2) gs (fst e) (snd e)) es ->
  exists N ts, Forall2 (xls_shows (G1 ++ G2)) es ts /\
    forall fuel hist, (N <= fuel)%nat -> Permutation hist (stock fuel sizes sp1 sp2 sp3 unzip order iter rd) ->
      commands_give (fun fn => fst (open_file (registered srt hist) fn w)) fn ts.
Proof.
  intros sizes sp1 sp2 sp3 unzip order iter rd srt fn w data p G1 salt verifier G2 q rest es HZ HS B1 B2 B3 B FG FL GR gs FF FE HW ST ND E F.
  destruct (C88_file sizes sp1 sp2 sp3 unzip order iter rd srt fn w data p G1 salt verifier G2 q rest HZ HS B1 B2 B3 B FG FL GR FF FE HW ST) as (N & b & O & _ & S).
  destruct (xls_tables b (G1 ++ G2) gs es S ND E F) as (ts & T1 & T2). exists N, ts. split; [exact T2|]. intros fuel hist Fu HP. apply (C90_commands _ _ (SrcXls b)); [|exact T1]. rewrite (O fuel hist Fu HP). reflexivity.
Qed.

(** a sheet entry of an XLSX workbook with its part *)
Record xpart := mkPart { xp_dir : list gostr; xp_base : gostr; xp_sheet : xwsheet; xp_target : gostr -> option gostr }.
Definition xlsx_at (z : xzip) (k : xpkg) (e : gostr * gostr) (q : xpart) : Prop :=
  sheet_part k (snd e) (path (xp_dir q ++ [xp_base q])) /\ Forall seg_ok (xp_dir q) /\ seg_ok (xp_base q) /\
  part_is z (path (xp_dir q ++ [xp_base q])) (xw_toks (xp_sheet q)) /\ sheet_targets z (xp_dir q) (xp_base q) (xp_target q) /\ xw_ok (zlen (pkg_strings k)) (xp_sheet q) /\
  Forall (fun o : gop => write_known (pkg_formats k) (snd o)) (xw_writes (pkg_strings k) (pkg_xfs k) (xp_target q) (xp_sheet q)).
Definition xlsx_shows (k : xpkg) (e : (gostr * gostr) * xpart) (t : table) : Prop :=
  table_shows (pkg_formats k) (fst (fst e)) (xw_writes (pkg_strings k) (pkg_xfs k) (xp_target (snd e)) (xp_sheet (snd e))) (snd (xw_size (xp_sheet (snd e)))) (fst (xw_size (xp_sheet (snd e)))) t.
Theorem C90_xlsx_file : forall fuel sizes sp1 sp2 sp3 unzip order iter rd srt hist fn w data z k es,
  sorts_by_priority srt -> Permutation hist (stock fuel sizes sp1 sp2 sp3 unzip order iter rd) -> (forall l, Permutation l (order l)) ->
  os_file w fn = FileData data None -> ~ compound data -> unzip data = inl z -> package z k ->
  NoDup (map fst (pk_sheets k)) -> map fst es = pk_sheets k -> Forall (fun e => xlsx_at z k (fst e) (snd e)) es ->
  exists ts, Forall2 (xlsx_shows k) es ts /\ commands_give (fun fn => fst (open_file (registered srt hist) fn w)) fn ts.
Proof.
  intros fuel sizes sp1 sp2 sp3 unzip order iter rd srt hist fn w data z k es HS HP HO HW NC HU PK ND E F.
  destruct (C74_xlsx_file fuel sizes sp1 sp2 sp3 unzip order iter rd srt hist fn w data z k HS HP HO HW NC HU PK) as (d & O & L & S & _). set (src := SrcXlsx fn (mkXO d false)) in *.
  assert (K : forall l, incl l es -> exists ts, Forall (fun t => snd (src_get src (tb_name t)) = Ok (M_tsv.mkSheet (tb_single t) (tb_rows t))) ts /\ Forall2 (xlsx_shows k) l ts).
  { induction l as [|e l IH]; intros I; [exists []; split; constructor|]. destruct IH as (ts & T1 & T2); [intros y Hy; apply I; right; exact Hy|].
    assert (Ie : In e es) by (apply I; left; reflexivity). rewrite Forall_forall in F. destruct (F e Ie) as (A1 & A2 & A3 & A4 & A5 & A6 & A7).
    assert (Ig : In (fst e) (pk_sheets k)) by (rewrite <- E; apply in_map; exact Ie).
    destruct (split_first _ fst _ _ ND Ig) as (a & c & EG & NI). destruct e as [[name id] q]. cbn [fst snd] in *.
    destruct (S a name id c _ _ _ _ EG NI A1 A2 A3 A4 A5 A6) as (o & s & G1 & G2 & D). destruct (displays_text _ _ _ _ _ (reach_formats (style_formats (pk_styles k)) new_formatter rf_new) A7 D) as (rows & R1 & R2).
    eexists (mkTable name _ rows :: ts). split; constructor; auto.
    - cbn [src src_get tb_name tb_single tb_rows]. rewrite G1, G2. cbn [snd]. exact R1.
    - split; [reflexivity|]. split; [reflexivity|exact R2]. }
  destruct (K es (incl_refl _)) as (ts & T1 & T2). exists ts. split; [exact T2|]. apply (C90_commands _ _ src); [rewrite O; reflexivity|]. split; [|exact T1].
  rewrite L, <- E. clear -T2. induction T2 as [|e t es ts (H & _) F IH]; [reflexivity|]. cbn [map]. rewrite <- H, IH. reflexivity.
Qed.

(** A TSV file: its rows, under its base name. *)
Lemma simple_rows_ok : forall fn rows pre fuel, (List.length rows < fuel)%nat -> simple_rows fuel (mkSimple fn (pre ++ rows) (zlen pre - 1)) = Ok rows.
Proof.
  intros fn rows. induction rows as [|r rows IH]; intros pre fuel L; destruct fuel as [|fuel]; try (cbn in L; lia); cbn [simple_rows]; unfold sf_next; cbn [sf_iter sf_rows sf_filename].
  - rewrite app_nil_r. destruct (Z.ltb_spec (zlen pre - 1 + 1) (zlen pre)); [lia|]. reflexivity.
  - rewrite zlen_app, zlen_cons. pose proof (zlen_nonneg _ rows). destruct (Z.ltb_spec (zlen pre - 1 + 1) (zlen pre + (1 + zlen rows))); [|lia].
    unfold sf_strings. cbn [sf_rows sf_iter]. rewrite (idx_ok _ (pre ++ r :: rows) (zlen pre - 1 + 1) r); [| |].
    + cbn [bind]. specialize (IH (pre ++ [r]) fuel). rewrite <- app_assoc in IH. cbn [app] in IH. rewrite zlen_app in IH. change (zlen [r]) with 1 in IH. replace (zlen pre - 1 + 1) with (zlen pre + 1 - 1) by lia. rewrite IH by (cbn in L; lia). reflexivity.
    + pose proof (zlen_nonneg _ pre). lia.
    + replace (zlen pre - 1 + 1) with (zlen pre) by lia. unfold zlen. rewrite Nat2Z.id, nth_error_app2, Nat.sub_diag by lia. reflexivity.
Qed.
Theorem C90_tsv_file : forall fuel sizes sp1 sp2 sp3 unzip order iter rd srt hist fn w rows e,
  sorts_by_priority srt -> Permutation hist (stock fuel sizes sp1 sp2 sp3 unzip order iter rd) ->
  any_order iter -> plain_table rows -> zlen rows <= 2 ^ 50 -> shape_ok rows ->
  os_file w fn = FileData (tsv_text rows) None -> ~ compound (tsv_text rows) -> unzip (tsv_text rows) = inr e ->
  commands_give (fun fn => fst (open_file (registered srt hist) fn w)) fn [mkTable (M_simple.path_base fn) (zlen rows =? 0) rows].
Proof.
  intros fuel sizes sp1 sp2 sp3 unzip order iter rd srt hist fn w rows e HS HP HI HT HL HR HW NC HU. apply (C90_commands _ _ (SrcSimple (mkSimple fn rows (-1)))).
  - erewrite C75_tsv_file; [reflexivity|..]; eassumption.
  - split; [reflexivity|]. constructor; [|constructor]. cbn [src_get snd tb_name tb_single tb_rows sf_rows sf_isempty]. change (-1) with (zlen (@nil (list gostr)) - 1). change rows with ([] ++ rows) at 2. rewrite simple_rows_ok by lia. reflexivity.
Qed.

(** ** where the output is not what the file shows *)
Lemma extent_ge : forall l n, n <= extent n l.
Proof. induction l as [|i l IH]; intros n; cbn [extent fold_right]; [lia|]. unfold extent in IH. specialize (IH n). lia. Qed.
Lemma extent_above : forall l n i, In i l -> i < extent n l.
Proof. induction l as [|j l IH]; intros n i H; [destruct H|]. cbn [extent fold_right]. destruct H as [->|H]; [lia|]. specialize (IH n i H). unfold extent in IH. lia. Qed.
(** after the rows of every sheet that has any grater prints one more row, of empty cells *)
Theorem C90_blank_row_refuted : forall x ws rows cols ts, text_rows x ws rows cols ts -> ts <> [] -> exists front n, ts = front ++ [repeat [] (S n)] /\ forall r c, last_write ws r c <> None -> r < zlen front.
Proof.
  intros x ws rows cols ts (H1 & H2 & H3) NE. destruct H3 as [(_ & _ & _ & E)|(L & F)]; [congruence|].
  destruct (exists_last NE) as (front & row & ->). rewrite zlen_app in L. change (zlen [row]) with 1 in L. apply Forall_app in F. destruct F as [_ F]. inversion F as [|? ? Lr _]; subst.
  pose proof (extent_ge (map (fun o : gop => snd (fst o)) ws) (Z.max 1 cols)). exists front, (Z.to_nat (zlen row) - 1)%nat. split.
  - do 2 f_equal. assert (LN : S (Z.to_nat (zlen row) - 1) = List.length row) by (unfold zlen in *; lia). rewrite LN.
    assert (B : forall c t, nth_error row c = Some t -> t = []).
    { intros c t Hc. specialize (H1 (List.length front) c t). unfold at2 in H1. rewrite nth_error_app2, Nat.sub_diag in H1 by lia. cbn [nth_error] in H1. specialize (H1 Hc).
      destruct (last_write ws (Z.of_nat (List.length front)) (Z.of_nat c)) as [w|] eqn:LW; [|exact H1]. apply last_write_In in LW. apply (in_map (fun o : gop => fst (fst o))) in LW. apply (extent_above _ (Z.max 1 rows)) in LW. cbn [fst] in LW. unfold zlen in L. lia. }
    clear -B. induction row as [|t row IH]; [reflexivity|]. cbn [List.length repeat]. f_equal; [apply (B 0%nat); reflexivity|]. apply IH. intros c t' H. apply (B (S c)). exact H.
  - intros r c HL. destruct (last_write ws r c) as [w|] eqn:LW; [|congruence]. apply last_write_In in LW. apply (in_map (fun o : gop => fst (fst o))) in LW. apply (extent_above _ (Z.max 1 rows)) in LW. cbn [fst] in LW. lia.
Qed.
(** a sheet with one cell is printed by grater but not written by grate2tsv, which takes it for
    empty *)
Theorem C90_one_cell_refuted : forall openf fn s x name v f t0,
  openf fn = Ok s -> holds_tables s [t0] -> table_shows x name [(0, 0, WPut v f)] 1 1 t0 ->
  (exists t ty code, cell_views x v f t ty code /\ grater_files (fun fn => open_book (openf fn)) [fn] = Ok [POut (t ++ [10]); POut [10]]) /\
  forall md5hex fl, fl_pretend fl = false -> exists rs, process_file md5hex (fun _ => None) fl (fun fn => open_book (openf fn)) fn = ([], Ok rs) /\ map ps_rows rs = [0] /\ map ps_err rs = [None].
Proof.
  intros openf fn s x name v f t0 E H (N & S & T). destruct (C90_commands openf fn s [t0] E H) as (P & W). split.
  - destruct T as (T1 & T2 & [(C & _)|(L & F)]); [discriminate|]. change (extent _ _ + 1) with 2 in L. change (extent _ _) with 1 in F. destruct (tb_rows t0) as [|r0 [|r1 [|]]] eqn:R; try (unfold zlen in L; cbn in L; lia).
    inversion F as [|? ? L0 F']; subst. inversion F' as [|? ? L1 _]; subst. destruct r0 as [|a [|]]; try (unfold zlen in L0; cbn in L0; lia). destruct r1 as [|b [|]]; try (unfold zlen in L1; cbn in L1; lia).
    pose proof (T1 0%nat 0%nat a eq_refl) as A. pose proof (T1 1%nat 0%nat b eq_refl) as B. change (write_text x (WPut v f) a) in A. change (b = []) in B. destruct A as (ty & code & A). subst b. exists a, ty, code. split; [exact A|]. rewrite P. cbn [flat_map]. unfold printed_table. rewrite R. reflexivity.
  - intros md5hex fl HP. destruct (W md5hex fl HP) as (rs & E1 & E2). exists rs. rewrite E1. cbn [flat_map]. unfold written_table. rewrite S. split; [reflexivity|]. inversion E2 as [|? st ? ? (_ & _ & R1 & R2) E3]; subst. inversion E3; subst. cbn [map]. rewrite R1, R2, S. auto.
Qed.
(** a link inside the workbook (one without an external target) prints as <nil>, whatever the cell
    showed *)
Theorem C90_nil_refuted : forall k e q t pre a c r id post, xlsx_shows k (e, q) t ->
  xw_items (xp_sheet q) = pre ++ XiLink a c r id :: post -> 0 <= r -> 0 <= c -> xp_target q (match id with Some i => i | None => [] end) = None ->
  last_write (flat_map (xitem_writes (pkg_strings k) (pkg_xfs k) (xp_target q) (xdim_last (xw_dim (xp_sheet q)))) post) r c = None ->
  at2 (tb_rows t) (Z.to_nat r) (Z.to_nat c) = Some (bs "<nil>").
Proof.
  intros k e q t pre a c r id post (_ & _ & T1 & T2 & _) EI Hr Hc ET LP. cbn [snd] in *.
  assert (LW : last_write (xw_writes (pkg_strings k) (pkg_xfs k) (xp_target q) (xp_sheet q)) r c = Some (WLink [])).
  { unfold xw_writes. rewrite EI, flat_map_app, last_write_app. cbn [flat_map xitem_writes]. rewrite ET. cbn [app last_write]. rewrite LP, !Z.eqb_refl. reflexivity. }
  destruct (T2 r c) as (t' & Ht); [rewrite LW; discriminate|]. rewrite Ht. specialize (T1 _ _ _ Ht). rewrite !Z2Nat.id in T1 by lia. rewrite LW in T1. cbn [write_text] in T1. congruence.
Qed.

(** ** files that meet the hypotheses *)
Definition ex_entry_data : Z * Z * Z * gostr := (P_xls.ex_pos, 0, 0, bs "Data").
Example ex_C90_xls : let G := P_xls.ex_globals P_xls.ex_pos in
  NoDup (map sheet_name (g_sheets G)) /\ map fst [(ex_entry_data, P_xls.ex_sheet)] = filter S_xls.shown (g_sheets G) /\ xls_at G P_xls.ex_book ex_entry_data P_xls.ex_sheet.
Proof.
  intros G. split; [|split].
  - replace (map sheet_name (g_sheets G)) with [[226; 130; 172]; bs "Data"] by (vm_compute; reflexivity). repeat constructor; intros H; cbn in H; intuition discriminate.
  - vm_compute. reflexivity.
  - exists 1%nat. destruct P_xls.ex_C52 as (_ & _ & _ & N & O & _). split; [exact O|]. split; [exact N|]. split; [exact P_xls.ex_sheet_ok|].
    set (known_b := fun w => match w with WPut _ f => (0 <=? f) && (f <? 65536) && snd (fx_get (book_formats G) f) | WText s f => (0 <=? f) && (f <? 65536) && snd (fx_get (book_formats G) f) && (negb (str_eqb s []) || (f =? 0)) | WLink _ => true end).
    assert (K : forallb (fun o : gop => known_b (snd o)) (xs_writes go_trim (book_strings G) (g_xfs G) P_xls.ex_sheet) = true) by (vm_compute; reflexivity).
    apply Forall_forall. intros o Ho. rewrite forallb_forall in K. specialize (K o Ho). destruct (snd o) as [v f|s f|s]; cbn [write_known known_b] in *; [| |exact I]; unfold known; repeat rewrite andb_true_iff in K.
    + split; [lia|]. apply K.
    + split; [lia|]. split; [apply K|]. destruct K as [_ K]. apply orb_true_iff in K. destruct K as [K|K]; [left; intros ->; discriminate|right; lia].
Qed.
Example ex_C90_xlsx : let q := mkPart [bs "xl"; bs "worksheets"] (bs "sheet1.xml") ex_xw (fun id => if str_eqb id (bs "rId1") then Some (bs "https://example.com/") else None) in
  NoDup (map fst (pk_sheets ex_pkg)) /\ map fst [((bs "First", bs "rId1"), q)] = pk_sheets ex_pkg /\ xlsx_at ex_zip ex_pkg (bs "First", bs "rId1") q.
Proof.
  intros q. split; [repeat constructor; intros []|]. split; [reflexivity|]. destruct ex_C61 as (XA & B & C & _ & _ & _ & W). unfold xlsx_at, q. cbn [xp_dir xp_base xp_sheet xp_target snd]. split; [exact XA|]. split; [repeat (constructor; [seg|]); constructor|]. split; [seg|]. split; [exact B|]. split; [exact C|]. split; [exact ex_xw_ok|].
  rewrite W. repeat (constructor; [cbn [snd write_known]; first [exact I|split; [lia|vm_compute; reflexivity]]|]). constructor.
Qed.
(** grater on the TSV file of P_open and on a file that is not there *)
Example ex_C90_grater : grater_files (fun fn => open_book (fst (open_file exo_stock fn (mkOs exo_fs [])))) [bs "b.dat"; bs "c.dat"] = Ok [POut (bs "x" ++ [9] ++ bs "y" ++ [10]); PErr (ELeaf 1)].
Proof. vm_compute. reflexivity. Qed.

Print Assumptions C90_printed.
Print Assumptions C90_commands.
Print Assumptions C90_independent.
Print Assumptions C90_xls_file.
Print Assumptions C90_encrypted_file.
Print Assumptions C90_xlsx_file.
Print Assumptions C90_tsv_file.
Print Assumptions C90_blank_row_refuted.
Print Assumptions C90_one_cell_refuted.
Print Assumptions C90_nil_refuted.

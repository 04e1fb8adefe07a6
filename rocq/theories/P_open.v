(** * P_open: C74 to C77 — from the bytes of a file to the source grate.Open returns. *)
From Verif Require Import GoBase GoUnicode L_base M_grate S_grate L_grate P_grate M_simple S_simple L_simple P_simple M_slicereader S_slicereader L_slicereader P_slicereader
  M_cfb S_cfb L_cfb P_cfb M_biff S_biff L_biff P_biff M_hlink P_hlink L_hlink M_xlstr L_xlstr M_sheet S_sheet S_grid M_xls S_xls L_xls L_xlsbook P_xls M_formats M_xlsx S_xlsx L_xlsx L_xlsxpkg P_xlsx M_open S_open.
From Coq Require Import Lia ZifyBool ZifyNat Permutation Sorted.

(** ** the registered table *)
Section Table.
  Variable fuel : nat.
  Variable sizes : nat -> Z.
  Variables sp1 sp2 sp3 : bytes.
  Variable unzip : bytes -> xzip + gerr.
  Variable order : list gostr -> list gostr.
  Variable iter : list (Z * Z) -> list (Z * Z).
  Variable rd : bytes -> option gerr -> list (list gostr) * csv_end.
  Notation stk := (stock fuel sizes sp1 sp2 sp3 unzip order iter rd).
  Lemma stock_table : forall srt hist, sorts_by_priority srt -> Permutation hist stk -> registered srt hist = stk.
  Proof.
    intros srt hist Hs Hp. destruct (registered_spec srt hist Hs) as [P1 S1].
    symmetry. apply sorted_unique; auto.
    - apply Permutation_sym. eapply Permutation_trans; [apply Permutation_sym; exact P1|exact Hp].
    - simpl. repeat constructor; simpl; intuition discriminate.
    - repeat constructor; unfold by_pri; simpl; lia.
  Qed.
End Table.

(** ** C74 *)
Lemma read_stored : forall data name content sizes sp, stores data name content -> (forall i, 0 < sizes i) ->
  exists N, forall fuel, (N <= fuel)%nat -> exists d sd,
    load fuel (mkSl data sp) = Ok d /\ doc_open fuel d (string_of_runes name) = Ok (new_sreader sd) /\
    sr_read_all (S (List.length (concat sd))) sizes (new_sreader sd) [] = Ok content.
Proof.
  intros data name content sizes sp H HZ.
  assert (R : forall sd, good_slices sd -> sr_read_all (S (List.length (concat sd))) sizes (new_sreader sd) [] = Ok (concat sd)).
  { intros sd G. rewrite <- (C34_read_all_new sd sizes G HZ). f_equal. unfold zlen. lia. }
  destruct H.
  - destruct (C36_stream_bytes data sp _ _ _ _ _ _ _ _ _ _ H H0 H1 H2 H3 H4 H5 H6) as (N & HX). exists N. intros fuel Fu.
    destruct (HX fuel Fu) as (d & sd & A1 & A2 & A3 & A4 & A5). exists d, sd. split; auto. split; auto. rewrite R by auto. rewrite A4, H7. reflexivity.
  - destruct (C37_mini_stream_bytes data sp _ _ _ _ _ _ _ _ _ _ _ _ _ H H0 H1 H2 H3 H4 H5 H6 H7 H8 H9 H10) as (N & HX). exists N. intros fuel Fu.
    destruct (HX fuel Fu) as (d & sd & A1 & A2 & A3 & A4 & A5). exists d, sd. split; auto. split; auto. rewrite R by auto. rewrite A4, H11. reflexivity.
Qed.
Lemma xls_stream_stored : forall data content sizes sp, stores data (bs "Workbook") content -> (forall i, 0 < sizes i) ->
  exists N, forall fuel, (N <= fuel)%nat -> xls_stream fuel sizes sp data None = Ok content.
Proof.
  intros data content sizes sp H HZ. destruct (read_stored _ _ _ _ sp H HZ) as (N & HX). exists N. intros fuel Fu. destruct (HX fuel Fu) as (d & sd & A1 & A2 & A3).
  unfold xls_stream. rewrite A1. cbn [bind]. change (bs "Workbook") with (string_of_runes (bs "Workbook")). rewrite A2. cbn [bind]. exact A3.
Qed.

(** A file that stores a workbook stream is opened as that workbook, whatever its name and
    whatever the order in which the four packages were registered. *)
Theorem C74_xls_file : forall sizes sp1 sp2 sp3 unzip order iter rd srt fn w data p G q rest tail,
  (forall i, 0 < sizes i) -> sorts_by_priority srt ->
  bof_ok p -> Forall grec_ok G -> Forall (Forall local_rec) rest -> Forall group rest ->
  let gs := globals_recs p G q :: rest in
  Forall (Forall (rec_fits 65531)) gs -> zlen tail < 4 ->
  os_file w fn = FileData data None -> stores data (bs "Workbook") (stream (concat gs) ++ tail) ->
  exists N b,
    (forall fuel hist, (N <= fuel)%nat -> Permutation hist (stock fuel sizes sp1 sp2 sp3 unzip order iter rd) ->
       open_file (registered srt hist) fn w = (Ok (SrcXls b), hold fn w)) /\
    src_list (SrcXls b) = map sheet_name (filter shown (g_sheets G)) /\
    wb_list_hidden b = map sheet_name (filter (fun s => negb (shown s)) (g_sheets G)) /\
    (forall a pos h t name c n sh, g_sheets G = a ++ (pos, h, t, name) :: c -> ~ In name (map sheet_name a) ->
       pos = offset gs n -> nth_error gs n = Some (xs_recs sh) -> xs_ok (zlen (book_strings G)) sh ->
       exists s, wb_get b name = Ok (Some s) /\ displays (book_formats G) (xs_writes go_trim (book_strings G) (g_xfs G) sh) (xs_rows sh) (xs_cols sh) s) /\
    (forall name, ~ In name (map sheet_name (g_sheets G)) -> wb_get b name = Err ESheetNotFound).
Proof.
  intros sizes sp1 sp2 sp3 unzip order iter rd srt fn w data p G q rest tail HZ HS B FG FL GR gs FF HT HW ST.
  destruct (C52_workbook p G q rest tail sp2 sp3 B FG FL GR FF HT) as (b & E & L1 & L2 & G1 & G2).
  destruct (xls_stream_stored data _ sizes sp1 ST HZ) as (N & HX).
  exists N, b. split; [|auto]. intros fuel hist Fu HP. rewrite (stock_table fuel sizes sp1 sp2 sp3 unzip order iter rd srt hist HS HP).
  unfold stock. cbn [open_file xls_entry tab_op]. unfold xls_open. rewrite HW, HX by exact Fu. cbn [bind]. fold gs in E. rewrite E. cbn [bind]. reflexivity.
Qed.

(** ** C75 *)
Lemma not_compound : forall data, ~ compound data <->
  (zlen data < 512 \/ field data 0 8 <> 16220472316735377360 \/ field data 28 2 <> 65534 \/ field data 8 8 <> 0 \/ field data 16 8 <> 0).
Proof. intros data. unfold compound. lia. Qed.
Section Dispatch.
  Variable fuel : nat.
  Variable sizes : nat -> Z.
  Variables sp1 sp2 sp3 : bytes.
  Variable unzip : bytes -> xzip + gerr.
  Variable order : list gostr -> list gostr.
  Variable iter : list (Z * Z) -> list (Z * Z).
  Variable rd : bytes -> option gerr -> list (list gostr) * csv_end.
  Notation stk := (stock fuel sizes sp1 sp2 sp3 unzip order iter rd).
  Variable srt : list (src_open_tab osw source) -> list (src_open_tab osw source).
  Variable hist : list (src_open_tab osw source).
  Hypothesis HS : sorts_by_priority srt.
  Hypothesis HP : Permutation hist stk.
  Notation opened := (open_file (registered srt hist)).

  Lemma nif : forall e, errors_is e ENotInFormat = true <-> on_chain ENotInFormat e.
  Proof. intros e. apply C03_errors_is_chain. exact I. Qed.
  Lemma xls_skips : forall fn w data, os_file w fn = FileData data None -> ~ compound data ->
    xls_open fuel sizes sp1 sp2 sp3 fn w = (Err ENotInFormat, hold fn w).
  Proof.
    intros fn w data HW NC. unfold xls_open. rewrite HW. unfold xls_stream.
    rewrite (proj2 (C38_not_in_format fuel data sp1) (proj1 (not_compound data) NC)). reflexivity.
  Qed.

  (** A file that cannot be opened is reported with the system's error. *)
  Theorem C75_missing : forall fn w e, os_file w fn = FileErr e -> ~ on_chain ENotInFormat e -> opened fn w = (Err e, w).
  Proof.
    intros fn w e HW NE. rewrite (stock_table fuel sizes sp1 sp2 sp3 unzip order iter rd srt hist HS HP). unfold stock. cbn [open_file xls_entry tab_op]. unfold xls_open. rewrite HW.
    destruct (errors_is e ENotInFormat) eqn:E; [apply nif in E; contradiction|]. reflexivity.
  Qed.
  (** A zip archive that is no compound file is what the XLSX opener makes of it, unless that
      says not-in-format. *)
  Theorem C75_zip : forall fn w data z, os_file w fn = FileData data None -> ~ compound data -> unzip data = inl z ->
    (forall d, open_doc order z = Ok d -> opened fn w = (Ok (SrcXlsx fn (mkXO d false)), hold fn (hold fn w))) /\
    (forall e, open_doc order z = Err e -> ~ on_chain ENotInFormat e -> opened fn w = (Err e, hold fn (hold fn w))).
  Proof.
    intros fn w data z HW NC HU. rewrite (stock_table fuel sizes sp1 sp2 sp3 unzip order iter rd srt hist HS HP). unfold stock. cbn [open_file xls_entry tab_op].
    rewrite (xls_skips fn w data HW NC). change (negb (errors_is ENotInFormat ENotInFormat)) with false. cbv iota. cbn [xlsx_entry tab_op]. unfold xlsx_open.
    change (os_file (hold fn w)) with (os_file w). rewrite HW, HU. cbn [open_xlsx]. split.
    - intros d E. rewrite E. reflexivity.
    - intros e E NE. rewrite E. cbn [bind]. destruct (errors_is e ENotInFormat) eqn:X; [apply nif in X; contradiction|]. reflexivity.
  Qed.
  (** A file that is neither is text for the TSV opener; what that does not take is an error: the
      CSV opener opens nothing (C06). *)
  Theorem C75_text : forall fn w data e, os_file w fn = FileData data None -> ~ compound data -> unzip data = inr e ->
    (forall t, open_tsv iter fn (FileData data None) = Ok t -> opened fn w = (Ok (SrcSimple t), hold fn (hold fn w))) /\
    (forall e', open_tsv iter fn (FileData data None) = Err e' -> exists e'', opened fn w = (Err e'', hold fn (hold fn w))).
  Proof.
    intros fn w data e HW NC HU. rewrite (stock_table fuel sizes sp1 sp2 sp3 unzip order iter rd srt hist HS HP). unfold stock. cbn [open_file xls_entry tab_op].
    rewrite (xls_skips fn w data HW NC). change (negb (errors_is ENotInFormat ENotInFormat)) with false. cbv iota. cbn [xlsx_entry tab_op]. unfold xlsx_open.
    change (os_file (hold fn w)) with (os_file w). rewrite HW, HU. cbn [open_xlsx bind]. change (negb (errors_is (wrap_err [e; ENotInFormat]) ENotInFormat)) with false. cbv iota.
    cbn [tsv_entry tab_op]. unfold tsv_open. change (os_file (hold fn (hold fn w))) with (os_file w). rewrite HW. split.
    - intros t E. rewrite E. reflexivity.
    - intros e' E. rewrite E. cbn [bind]. destruct (negb (errors_is e' ENotInFormat)); [eauto|]. cbn [csv_entry tab_op]. unfold csv_open. change (os_file (hold fn (hold fn w))) with (os_file w). rewrite HW.
      destruct (C06_csv_opens_refuted iter rd fn (FileData data None)) as (e'' & E''). rewrite E''. cbn [bind]. destruct (negb _); eauto.
  Qed.
  (** In particular a TSV file is read back row by row. *)
  Theorem C75_tsv_file : forall fn w rows e, any_order iter -> plain_table rows -> zlen rows <= 2 ^ 50 -> shape_ok rows ->
    os_file w fn = FileData (tsv_text rows) None -> ~ compound (tsv_text rows) -> unzip (tsv_text rows) = inr e ->
    opened fn w = (Ok (SrcSimple (mkSimple fn rows (-1))), hold fn (hold fn w)).
  Proof. intros fn w rows e HI HT HL HR HW NC HU. eapply C75_text; eauto. apply C04_tsv_round_trip; auto. Qed.
  (** The name of the file plays no role: the same content under two names has the same outcome. *)
  Theorem C75_name_irrelevant : forall fn1 fn2 w, os_file w fn1 = os_file w fn2 ->
    outcome_of (fst (opened fn1 w)) = outcome_of (fst (opened fn2 w)).
  Proof.
    intros fn1 fn2 w HW. rewrite (stock_table fuel sizes sp1 sp2 sp3 unzip order iter rd srt hist HS HP). unfold stock. cbn [open_file xls_entry xlsx_entry tsv_entry csv_entry tab_op].
    unfold xls_open, xlsx_open, tsv_open, csv_open. rewrite HW. destruct (os_file w fn2) as [e|data re] eqn:E2.
    - destruct (negb (errors_is e ENotInFormat)) eqn:EE; [reflexivity|]. rewrite ?HW, ?E2, EE. rewrite ?HW, ?E2. cbn [open_tsv bind]. rewrite EE. rewrite ?HW, ?E2. cbn [open_csv bind]. rewrite EE. reflexivity.
    - destruct (raw <- _ ;; _) as [s|e| |]; try reflexivity. destruct (negb (errors_is e ENotInFormat)); [reflexivity|].
      change (os_file (hold fn1 w)) with (os_file w). change (os_file (hold fn2 w)) with (os_file w). rewrite ?HW, ?E2.
      destruct (open_xlsx order _) as [s|e2| |]; cbn [bind]; try reflexivity. destruct (negb (errors_is e2 ENotInFormat)); [reflexivity|].
      change (os_file (hold fn1 (hold fn1 w))) with (os_file w). change (os_file (hold fn2 (hold fn2 w))) with (os_file w). rewrite ?HW, ?E2. cbn [open_tsv].
      destruct (scan_lines data re) as [ls|e3| |]; cbn [bind]; try reflexivity.
      + destruct (looks_good iter _ =? 1); [|reflexivity]. cbn [bind]. destruct (negb (errors_is ENotInFormat ENotInFormat)); [reflexivity|].
        destruct (C06_csv_opens_refuted iter rd fn2 (FileData data re)) as (e4 & E4). rewrite E4.
        assert (E5 : open_csv iter rd fn1 (FileData data re) = Err e4).
        { revert E4. cbn [open_csv]. destruct (rd data re) as [recs ee]. unfold open_csv_loop_result. destruct ee; auto; destruct (_ <? _); auto. }
        rewrite E5. cbn [bind]. destruct (negb _); reflexivity.
      + destruct (negb (errors_is e3 ENotInFormat)); [reflexivity|].
        destruct (C06_csv_opens_refuted iter rd fn2 (FileData data re)) as (e4 & E4). rewrite E4.
        assert (E5 : open_csv iter rd fn1 (FileData data re) = Err e4).
        { revert E4. cbn [open_csv]. destruct (rd data re) as [recs ee]. unfold open_csv_loop_result. destruct ee; auto; destruct (_ <? _); auto. }
        rewrite E5. cbn [bind]. destruct (negb _); reflexivity.
  Qed.

  (** ** C76 *)
  (** the world after closing what Open returned *)
  Definition after_close (r : res source) (w : osw) : osw := match r with Ok s => snd (src_close s w) | _ => w end.
  Lemma str_eqb_refl : forall s, str_eqb s s = true.
  Proof. intros s. apply str_eqb_eq. reflexivity. Qed.
  Lemma drop_held : forall fn l, handles fn (drop_one fn l) = Z.max 0 (handles fn l - 1).
  Proof.
    assert (P : forall fn l, 0 <= handles fn l) by (induction l; cbn [handles]; [lia|]; destruct (str_eqb _ _); lia).
    intros fn l. pose proof (P fn l). induction l as [|x l IH]; [reflexivity|]. cbn [drop_one handles] in *. destruct (str_eqb x fn) eqn:E; [pose proof (P fn l); lia|]. cbn [handles]. rewrite E. rewrite IH; lia.
  Qed.
  (** Every attempt to open an existing file leaves at least one handle to it behind, also after
      Close: the XLS opener, which comes first, never closes the file. *)
  Theorem C76_handle_left_refuted : forall fn w data re r w', os_file w fn = FileData data re -> opened fn w = (r, w') ->
    handles fn (os_held w) + 1 <= handles fn (os_held (after_close r w')).
  Proof.
    intros fn w data re r w' HW. rewrite (stock_table fuel sizes sp1 sp2 sp3 unzip order iter rd srt hist HS HP). unfold stock. cbn [open_file xls_entry xlsx_entry tsv_entry csv_entry tab_op].
    unfold xls_open, xlsx_open, tsv_open, csv_open. rewrite HW. change (os_file (hold fn w)) with (os_file w). rewrite HW. change (os_file (hold fn (hold fn w))) with (os_file w). rewrite HW.
    assert (H0 : handles fn (os_held (hold fn w)) = handles fn (os_held w) + 1) by (cbn [hold os_held handles]; rewrite str_eqb_refl; lia).
    assert (H1 : handles fn (os_held (hold fn (hold fn w))) = handles fn (os_held w) + 2) by (cbn [hold os_held handles]; rewrite !str_eqb_refl; lia).
    assert (H2 : forall s, (match s with SrcXlsx f _ => f = fn | _ => True end) -> forall v, handles fn (os_held v) - 1 <= handles fn (os_held (snd (src_close s v))) /\ (match s with SrcXlsx _ _ => True | _ => snd (src_close s v) = v end)).
    { intros s Hs v. destruct s as [b|f o|t]; cbn [src_close snd]; try (split; [lia|reflexivity]). subst f. split; [|exact I]. destruct (xo_closed o); [lia|]. cbn [unhold os_held]. rewrite drop_held. lia. }
    destruct (raw <- _ ;; _) as [s|e| |] eqn:EX; [| |intros [= <- <-]; cbn [after_close]; lia|intros [= <- <-]; cbn [after_close]; lia].
    { intros [= <- <-]. cbn [after_close].
      destruct (xls_stream _ _ _ _ _) as [raw|?| |]; cbn [bind] in EX; try discriminate. destruct (load_workbook _ _) as [b|?| |]; cbn [bind] in EX; try discriminate. injection EX as <-. cbn [src_close snd]. lia. }
    destruct (negb (errors_is e ENotInFormat)); [intros [= <- <-]; cbn [after_close]; lia|].
    destruct (open_xlsx order _) as [s|e2| |]; cbn [bind]; [| |intros [= <- <-]; cbn [after_close]; lia|intros [= <- <-]; cbn [after_close]; lia].
    { intros [= <- <-]. cbn [after_close]. destruct (H2 (SrcXlsx fn (mkXO s false)) eq_refl (hold fn (hold fn w))) as [L _]. lia. }
    destruct (negb (errors_is e2 ENotInFormat)); [intros [= <- <-]; cbn [after_close]; lia|].
    destruct (open_tsv iter fn _) as [t|e3| |]; cbn [bind]; [intros [= <- <-]; cbn [after_close src_close snd]; lia| |intros [= <- <-]; cbn [after_close]; lia|intros [= <- <-]; cbn [after_close]; lia].
    destruct (negb (errors_is e3 ENotInFormat)); [intros [= <- <-]; cbn [after_close]; lia|].
    destruct (C06_csv_opens_refuted iter rd fn (FileData data re)) as (e4 & E4). rewrite E4. cbn [bind]. destruct (negb (errors_is e4 ENotInFormat)); intros [= <- <-]; cbn [after_close]; lia.
  Qed.
  (** What does hold: the XLSX opener's own handle is released by Close, once; the text openers
      leave none. *)
  Theorem C76_xlsx_close : forall fn w s w', xlsx_open unzip order fn w = (Ok s, w') ->
    let '(s1, w1) := src_close s w' in w1 = w /\ src_close s1 w1 = (s1, w1).
  Proof.
    intros fn w s w' H. unfold xlsx_open in H. destruct (os_file w fn) as [e|data re]; [discriminate|]. destruct (open_xlsx order _) as [d|e| |]; cbn [bind] in H; try discriminate. injection H as <- <-.
    cbn [src_close doc_close fst xo_closed xo_doc]. split; [|reflexivity]. unfold unhold. cbn [hold os_held os_file drop_one]. rewrite str_eqb_refl. destruct w; reflexivity.
  Qed.
  Theorem C76_text : forall fn w, snd (tsv_open iter fn w) = w /\ snd (csv_open iter rd fn w) = w.
  Proof. intros. split; reflexivity. Qed.
  (** ... but when xlsx.Open fails its handle stays. *)
  Theorem C76_xlsx_failure_refuted : forall fn w e w' data re, os_file w fn = FileData data re -> xlsx_open unzip order fn w = (Err e, w') -> handles fn (os_held w') = handles fn (os_held w) + 1.
  Proof.
    intros fn w e w' data re HW H. unfold xlsx_open in H. rewrite HW in H. destruct (open_xlsx order _) as [d|e2| |]; cbn [bind] in H; try discriminate. injection H as _ <-. cbn [hold os_held handles]. rewrite str_eqb_refl. lia.
  Qed.
End Dispatch.

(** ** C77 *)
Definition no_sheets (body : list xtok) : Prop := elements "sheet" body = [].
Lemma workbook_no_sheets : forall body d, no_sheets body -> workbook_loop body d = Ok d.
Proof.
  induction body as [|t body IH]; intros d H; [reflexivity|]. unfold no_sheets, elements in H. destruct t as [n a| | |]; cbn [workbook_loop flat_map] in *; try (apply IH; exact H).
  destruct (str_eqb n (bs "sheet")); [discriminate|]. apply IH. exact H.
Qed.
Lemma styles_others : forall l st, Forall (other style_names) l -> styles_loop l st = Ok st.
Proof.
  induction l as [|t l IH]; intros st F; [reflexivity|]. inversion F as [|? ? O F2]; subst.
  assert (NE : forall n, ~ In n style_names -> forall s, In (bs s) style_names -> str_eqb n (bs s) = false).
  { intros n N s Hs. destruct (str_eqb n (bs s)) eqn:E; [|reflexivity]. apply str_eqb_eq in E. subst. contradiction. }
  destruct t as [n a|n| |]; cbn [styles_loop]; try (apply IH; exact F2); cbn [other] in O.
  - unfold style_start. rewrite !(NE n O) by (vm_compute; tauto). cbn [bind]. apply IH. exact F2.
  - unfold style_end. rewrite !(NE n O) by (vm_compute; tauto). apply IH. exact F2.
Qed.
(** A word-processing document, whatever its text, styles and other parts, is opened without an
    error, as a workbook without sheets. *)
Theorem C77_word_document_refuted : forall fuel sizes sp1 sp2 sp3 unzip order iter rd srt hist fn w data body styles extra,
  sorts_by_priority srt -> Permutation hist (stock fuel sizes sp1 sp2 sp3 unzip order iter rd) -> (forall l, Permutation l (order l)) ->
  os_file w fn = FileData data None -> ~ compound data -> unzip data = inl (word_package body styles extra) ->
  no_sheets body -> Forall (other style_names) styles ->
  exists o, fst (open_file (registered srt hist) fn w) = Ok (SrcXlsx fn o) /\ src_list (SrcXlsx fn o) = [].
Proof.
  intros fuel sizes sp1 sp2 sp3 unzip order iter rd srt hist fn w data body styles extra HS HP HO HW NC HU NS FS.
  assert (E : exists d, open_doc order (word_package body styles extra) = Ok d /\ xd_sheets d = []).
  { assert (O1 : order [bs "word/styles.xml"] = [bs "word/styles.xml"]) by (apply Permutation_length_1_inv, HO).
    assert (O0 : order [] = []) by (apply Permutation_nil, HO).
    set (z := word_package body styles extra).
    set (d0 := mkXDoc z (bs "word/document.xml") [(rel_styles, [(bs "rId1", bs "word/styles.xml")]); (rel_office, [(bs "rId1", bs "word/document.xml")])] [] [] [] new_formatter).
    assert (A : open_doc order z =
      (d <- need (open_xml z (bs "word/document.xml")) (fun x => parse_workbook x d0) ;;
       d <- parse_parts parse_styles (order (live_values [] (rels_of (xd_rels d) rel_styles))) d ;;
       parse_parts parse_shared (order (live_values [] (rels_of (xd_rels d) rel_strings))) d)) by reflexivity.
    rewrite A. change (open_xml z (bs "word/document.xml")) with (@inl xml gerr (mkXml body EEOF)). cbn [need]. unfold parse_workbook at 1. cbn [xm_toks xm_end end_err]. rewrite workbook_no_sheets by exact NS. cbn [bind].
    change (live_values [] (rels_of (xd_rels d0) rel_styles)) with [bs "word/styles.xml"]. rewrite O1. cbn [parse_parts].
    change (open_xml (xd_zip d0) (bs "word/styles.xml")) with (@inl xml gerr (mkXml styles EEOF)). cbn [need]. unfold parse_styles at 1. cbn [xm_toks xm_end end_err]. rewrite styles_others by exact FS. cbn [bind].
    match goal with |- context [rels_of (xd_rels ?d) rel_strings] => change (live_values [] (rels_of (xd_rels d) rel_strings)) with (@nil gostr) end. rewrite O0. cbn [parse_parts]. eexists. split; reflexivity. }
  destruct E as (d & E & ES). destruct (C75_zip _ _ _ _ _ _ _ iter rd _ _ HS HP fn w data _ HW NC HU) as [K _].
  exists (mkXO d false). rewrite (K d E). split; [reflexivity|]. cbn [src_list]. unfold doc_list. cbn [xo_closed xo_doc]. rewrite ES. reflexivity.
Qed.
(** What does hold: an archive without package relationships, or without a main part, is not
    opened as a workbook. *)
Theorem C77_other_archives : forall order z,
  (open_xml z (bs "_rels/.rels") = inr EEOF -> exists e, open_doc order z = Err e /\ on_chain ENotInFormat e) /\
  (forall toks, open_xml z (bs "_rels/.rels") = inl (mkXml toks EEOF) -> (forall a, In a (elements "Relationship" toks) -> map_get a (bs "Type") <> rel_office) -> open_doc order z = Err EInvalidDoc).
Proof.
  intros order z. split.
  - intros H. unfold open_doc. rewrite H. eexists. split; [reflexivity|]. apply (C03_errors_is_chain _ ENotInFormat I). reflexivity.
  - intros toks H N. unfold open_doc. rewrite H. unfold parse_rels. cbn [xm_toks xm_end end_err].
    assert (P : forall toks d, (forall a, In a (elements "Relationship" toks) -> map_get a (bs "Type") <> rel_office) -> xd_primary (rels_loop [] toks d) = xd_primary d).
    { clear. induction toks as [|t toks IH]; intros d N; [reflexivity|]. destruct t as [n a| | |]; cbn [rels_loop]; try (apply IH; intros; apply N; exact H).
      unfold elements in N. cbn [flat_map] in N. destruct (str_eqb n (bs "Relationship")); [|apply IH; intros; apply N; exact H].
      rewrite IH by (intros; apply N; right; exact H). unfold rel_elem. cbn [xd_primary]. destruct (str_eqb _ rel_office) eqn:E; [|reflexivity]. apply str_eqb_eq in E. exfalso. apply (N a); [left; reflexivity|exact E]. }
    rewrite P by exact N. reflexivity.
Qed.

(** The same for XLSX: a package that opens as its workbook (C61) does so through grate.Open. *)
Theorem C74_xlsx_file : forall fuel sizes sp1 sp2 sp3 unzip order iter rd srt hist fn w data z k,
  sorts_by_priority srt -> Permutation hist (stock fuel sizes sp1 sp2 sp3 unzip order iter rd) -> (forall l, Permutation l (order l)) ->
  os_file w fn = FileData data None -> ~ compound data -> unzip data = inl z -> package z k ->
  exists d, open_file (registered srt hist) fn w = (Ok (SrcXlsx fn (mkXO d false)), hold fn (hold fn w)) /\
    src_list (SrcXlsx fn (mkXO d false)) = map fst (pk_sheets k) /\
    (forall a name id b dir base x target, pk_sheets k = a ++ (name, id) :: b -> ~ In name (map fst a) -> sheet_part k id (path (dir ++ [base])) -> Forall seg_ok dir -> seg_ok base ->
       part_is z (path (dir ++ [base])) (xw_toks x) -> sheet_targets z dir base target -> xw_ok (zlen (pkg_strings k)) x ->
       exists o s, doc_get (mkXO d false) name = Ok (o, (List.length a, None)) /\ coll o (List.length a) = Some s /\
         displays (pkg_formats k) (xw_writes (pkg_strings k) (pkg_xfs k) target x) (snd (xw_size x)) (fst (xw_size x)) s) /\
    (forall name, ~ In name (map fst (pk_sheets k)) -> doc_get (mkXO d false) name = Err ENoSheet).
Proof.
  intros fuel sizes sp1 sp2 sp3 unzip order iter rd srt hist fn w data z k HS HP HO HW NC HU PK.
  destruct (C61_workbook order z k HO PK) as (d & E & R). exists d. split; [|exact R].
  destruct (C75_zip _ _ _ _ _ _ _ iter rd _ _ HS HP fn w data z HW NC HU) as [K _]. apply K. exact E.
Qed.

(** ** concrete files *)
(** FAT in sector 0, directory in 1, mini FAT in 2, mini stream in sectors 4 and 3; the workbook
    of P_xls has 544 bytes in mini sectors 0 to 8 *)
Definition exo_content : bytes := stream (concat P_xls.ex_book) ++ [0; 0].
Definition exo_fat : list Z := [4294967293; ENDOFCHAIN; ENDOFCHAIN; ENDOFCHAIN; 3] ++ repeat FREESECT 123.
Definition exo_minifat : list Z := [1; 2; 3; 4; 5; 6; 7; 8; ENDOFCHAIN] ++ repeat FREESECT 119.
Definition exo_name : list Z := bs "Workbook".
Definition exo_file : bytes :=
  hdr_bytes 3 1 1 2 1 ENDOFCHAIN 0 [0] ++ flat_map put32 exo_fat ++
  (ex_entry ex_root 5 4 1024 ++ ex_entry exo_name 2 0 544 ++ repeat 0 256) ++
  flat_map put32 exo_minifat ++ (zdrop 512 exo_content ++ repeat 7 480) ++ ztake 512 exo_content.
Definition exo_es := [(ex_root, 5, 4, 1024); (exo_name, 2, 0, 544)].
Lemma exo_bytes : bytes_ok exo_file.
Proof.
  assert (F : forallb (fun b => (0 <=? b) && (b <? 256)) exo_file = true) by (vm_compute; reflexivity).
  apply Forall_forall. intros x Hx. rewrite forallb_forall in F. specialize (F x Hx). lia.
Qed.
Lemma exo_header : cfb_header exo_file 3 [0] [] (Some 2) 1.
Proof.
  constructor.
  - apply Z.leb_le. vmr.
  - vmr.
  - split; vmr.
  - split; [auto|vmr].
  - vmr.
  - vmr.
  - vmr.
  - vmr.
  - intros _. vmr.
  - split; vmr.
  - vmr.
  - vmr.
  - split; [vmr|split; [vmr|apply in_file_b; vmr]].
  - exists []. split; [vmr|]. split; [vmr|].
    replace (field exo_file 68 4) with ENDOFCHAIN by vmr. constructor.
  - apply Z.leb_le. vmr.
  - intros i Hi. assert (F : forallb (fun i => field exo_file (76 + 4 * Z.of_nat i) 4 =? nth i [0] FREESECT) (seq 0 109) = true) by vmr.
    rewrite forallb_forall in F. apply Z.eqb_eq. apply F. apply in_seq. lia.
  - constructor; [apply in_file_b; vmr|constructor].
Qed.
Lemma exo_stores : stores exo_file (bs "Workbook") exo_content.
Proof.
  assert (NE : forall s, 0 <= s < 1000 -> ~ end_mark s) by (unfold end_mark, ENDOFCHAIN, FREESECT; lia).
  apply (st_mini _ _ _ 3 [0] [] (Some 2) 1 exo_es 0 544 4 1024 [4; 3] [0; 1; 2; 3; 4; 5; 6; 7; 8] exo_bytes exo_header).
  - split; [apply in_file_b; vmr|]. unfold exo_es. cbn [directory].
    split; [apply dir_entry_b; vmr|]. split; [apply dir_entry_b; vmr|]. right. vmr.
  - exists [(ex_root, 5, 4, 1024)], []. split; [reflexivity|]. intros n ty st sz [[= <- <- <- <-]|[]] Q. discriminate.
  - split; [discriminate|reflexivity].
  - exists [], ex_root, [(exo_name, 2, 0, 544)]. split; [reflexivity|]. split; [split; [discriminate|reflexivity]|]. intros n ty st sz [[= <- <- <- <-]|[]]; discriminate.
  - change (sec_bytes 3) with 512. replace (fat_of exo_file 512 ([0] ++ [])) with exo_fat by vmr.
    eapply ch_step with (t := 3); [apply NE; lia|lia|reflexivity|]. eapply ch_step with (t := ENDOFCHAIN); [apply NE; lia|lia|reflexivity|]. constructor. left. reflexivity.
  - repeat (constructor; [apply in_file_b; vmr|]). constructor.
  - vmr.
  - change (sec_bytes 3) with 512. replace (minifat_of exo_file 512 (Some 2)) with exo_minifat by vmr.
    do 8 (eapply ch_step; [apply NE; lia|lia|reflexivity|]). eapply ch_step with (t := ENDOFCHAIN); [apply NE; lia|lia|reflexivity|]. constructor. left. reflexivity.
  - repeat (constructor; [apply Z.leb_le; vmr|]). constructor.
  - vmr.
  - vmr.
Qed.
Definition exo_fs (fn : gostr) : gofile :=
  if str_eqb fn (bs "a.dat") then FileData exo_file None
  else if str_eqb fn (bs "b.dat") then FileData (bs "x" ++ [9] ++ bs "y" ++ [10]) None
  else FileErr (ELeaf 1).
Definition exo_unzip (b : bytes) : xzip + gerr := if zlen b =? 3 then inl (word_package [XStart (bs "document") []; XChars (bs "text")] [XOther] []) else inr (ELeaf 2).
Definition exo_rd (b : bytes) (e : option gerr) : list (list gostr) * csv_end := ([], CsvEOF).
Definition exo_stock := stock 5000 (fun _ => 512) [] [] [] exo_unzip (fun l => l) (fun l => l) exo_rd.
(** the hypotheses of C74_xls_file are those of ex_C52 and [exo_stores]; the whole computation: *)
Example ex_C74 : stores exo_file (bs "Workbook") (stream (concat P_xls.ex_book) ++ [0; 0]) /\
  match open_file exo_stock (bs "a.dat") (mkOs exo_fs []) with
  | (Ok (SrcXls b), w) => wb_list b = [bs "Data"] /\ os_held w = [bs "a.dat"]
  | _ => False
  end.
Proof. split; [exact exo_stores|]. vm_compute. split; reflexivity. Qed.
Example ex_C75 : ~ compound (bs "x" ++ [9] ++ bs "y" ++ [10]) /\ compound exo_file /\
  open_file exo_stock (bs "b.dat") (mkOs exo_fs []) = (Ok (SrcSimple (mkSimple (bs "b.dat") [[bs "x"; bs "y"]] (-1))), mkOs exo_fs [bs "b.dat"; bs "b.dat"]) /\
  open_file exo_stock (bs "c.dat") (mkOs exo_fs []) = (Err (ELeaf 1), mkOs exo_fs []).
Proof.
  split; [intros [H _]; vm_compute in H; congruence|]. split; [unfold compound; split; [apply Z.leb_le; vmr|repeat split; vmr]|]. split; vmr.
Qed.
Example ex_C77 : no_sheets [XStart (bs "document") []; XChars (bs "text")] /\ Forall (other style_names) [XOther] /\ exo_unzip [1; 2; 3] <> inr (ELeaf 2) /\
  match open_file exo_stock (bs "d") (mkOs (fun _ => FileData [1; 2; 3] None) []) with (Ok s, w) => src_list s = [] /\ handles (bs "d") (os_held (snd (src_close s w))) = 1 | _ => False end.
Proof. split; [reflexivity|]. split; [repeat constructor|]. split; [discriminate|]. vm_compute. split; reflexivity. Qed.

Print Assumptions C74_xls_file.
Print Assumptions C74_xlsx_file.
Print Assumptions C75_missing.
Print Assumptions C75_zip.
Print Assumptions C75_text.
Print Assumptions C75_tsv_file.
Print Assumptions C75_name_irrelevant.
Print Assumptions C76_handle_left_refuted.
Print Assumptions C76_xlsx_close.
Print Assumptions C76_text.
Print Assumptions C76_xlsx_failure_refuted.
Print Assumptions C77_word_document_refuted.
Print Assumptions C77_other_archives.

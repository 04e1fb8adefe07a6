(** * P_whichfile: C107 — exactly which files grate.Open opens, and as what. *)
From Verif Require Import GoBase GoUnicode M_simple GoPath L_base M_grate S_grate L_grate P_grate M_slicereader S_simple L_simple P_simple M_cfb S_cfb L_cfb P_cfb M_biff M_fmt M_formats M_sheet M_xls M_xlsx S_cell S_xlsx L_xlsxpkg S_sheet S_xrobust P_xrobust S_xsays P_xsays P_xsaysfile S_open M_open P_open P_refuse S_cfbsays P_cfbsays P_cfbopens P_cfbfile L_plain S_which P_which P_lost.
From Coq Require Import Lia ZifyBool ZifyNat Permutation.
Local Opaque fx_add path_join path_base trim_suffix parse_int.

(** ** archives that are left to the readers of text *)
Definition foreign {A} (r : res A) : Prop := match r with Err e => ~ on_chain ENotInFormat e | _ => True end.
Lemma foreign_bind : forall A B (x : res A) (f : A -> res B), foreign x -> (forall a, x = Ok a -> foreign (f a)) -> foreign (bind x f).
Proof. intros A B [a|e| |] f H F; cbn [bind]; auto. Qed.
Lemma foreign_plain : forall A (r : res A), plain r <-> foreign r.
Proof. intros A [a|e| |]; cbn [plain foreign]; try tauto. rewrite <- nif. destruct (errors_is e ENotInFormat); split; congruence. Qed.
Lemma end_foreign : forall z n x e, own_errors z -> open_xml z n = inl x -> end_err (xm_end x) = Some e -> ~ on_chain ENotInFormat e.
Proof. intros z n x e O H E. specialize (O n). rewrite H in O. unfold end_err in E. destruct (xm_end x); congruence. Qed.
Lemma open_foreign : forall z n e, own_errors z -> open_xml z n = inr e -> ~ on_chain ENotInFormat e.
Proof. intros z n e O H. specialize (O n). rewrite H in O. exact O. Qed.
Lemma workbook_foreign : forall l d, foreign (workbook_loop l d).
Proof.
  induction l as [|t l IH]; intros d; cbn [workbook_loop]; [exact I|]. destruct t; try apply IH. destruct (str_eqb name _); [|apply IH].
  destruct (map_attr attrs (bs "id")); [destruct (map_attr attrs (bs "name")); [apply IH|]|]; apply foreign_plain; reflexivity.
Qed.
Lemma styles_foreign : forall l st, foreign (styles_loop l st).
Proof.
  intros l st. apply foreign_plain. revert st. induction l as [|t l IH]; intros st; cbn [styles_loop]; [exact I|]. destruct t; try apply IH. apply plain_bind; [|intros; apply IH].
  unfold style_start, style_xf. cbv zeta. pl.
Qed.
Lemma parts_foreign : forall z f, own_errors z -> (forall x d n, open_xml z n = inl x -> foreign (f x d)) -> (forall x d d', f x d = Ok d' -> xd_zip d' = xd_zip d) ->
  forall names d, xd_zip d = z -> foreign (parse_parts f names d).
Proof.
  intros z f O F K. induction names as [|n names IH]; intros d D; cbn [parse_parts]; [exact I|]. rewrite D. apply foreign_bind.
  - unfold need. destruct (open_xml z n) as [x|e] eqn:E; [eapply F; exact E|exact (open_foreign _ _ _ O E)].
  - intros d' E. apply IH. unfold need in E. destruct (open_xml z n) as [x|e]; [|discriminate]. rewrite (K _ _ _ E). exact D.
Qed.
Lemma styles_zip : forall x d d', parse_styles x d = Ok d' -> xd_zip d' = xd_zip d.
Proof. intros x d d' H. unfold parse_styles in H. destruct (styles_loop _ _); cbn [bind] in H; try discriminate. destruct (end_err _); [discriminate|]. injection H as <-. reflexivity. Qed.
Lemma shared_zip : forall x d d', parse_shared x d = Ok d' -> xd_zip d' = xd_zip d.
Proof. intros x d d' H. unfold parse_shared in H. destruct (end_err _); [discriminate|]. injection H as <-. reflexivity. Qed.
Lemma workbook_zip : forall l d d', workbook_loop l d = Ok d' -> xd_zip d' = xd_zip d.
Proof.
  induction l as [|t l IH]; intros d d' H; cbn [workbook_loop] in H; [congruence|]. destruct t; try (exact (IH _ _ H)). destruct (str_eqb name _); [|exact (IH _ _ H)].
  destruct (map_attr attrs (bs "id")); [destruct (map_attr attrs (bs "name"))|]; try discriminate. apply IH in H. exact H.
Qed.
Lemma rels_zip : forall b l d, xd_zip (rels_loop b l d) = xd_zip d.
Proof.
  intros b. induction l as [|t l IH]; intros d; cbn [rels_loop]; [reflexivity|]. destruct t; try apply IH. rewrite IH. destruct (str_eqb name _); [|reflexivity]. unfold rel_elem. cbv zeta. repeat match goal with |- context [if ?b then _ else _] => destruct b end; reflexivity.
Qed.

(** An archive is left to the readers that come later exactly if it has no top relationships that
    can be read to their end: every other archive is opened or refused. *)
Theorem C107_no_package : forall order z, own_errors z ->
  (exists e, open_xlsx order (XZip z) = Err e /\ on_chain ENotInFormat e) <-> no_package z.
Proof.
  intros order z O. cbn [open_xlsx]. unfold open_doc, no_package. destruct (open_xml z (bs "_rels/.rels")) as [x1|e1] eqn:O1.
  2: { split; [intros _ top (x & Q & _); congruence|]. intros _. exists (wrap_err [e1; ENotInFormat]). split; [reflexivity|]. apply nif. reflexivity. }
  unfold parse_rels at 1. destruct (end_err (xm_end x1)) as [e1|] eqn:E1.
  { split; [intros _ top (x & Q & _ & E); congruence|]. intros _. exists (wrap_err [e1; ENotInFormat]). split; [reflexivity|]. apply nif. reflexivity. }
  split. 2: { intros H. elim (H (xm_toks x1)). exists x1. auto. }
  intros (e & H & C). exfalso. revert e H C. match goal with |- forall e, ?r = Err e -> _ => cut (foreign r); [intros F e H; rewrite H in F; exact F|] end.
  assert (D1 : xd_zip (rels_loop [] (xm_toks x1) (new_xdoc z)) = z) by (rewrite rels_zip; reflexivity). set (d1 := rels_loop [] (xm_toks x1) (new_xdoc z)) in *. clearbody d1.
  destruct (xd_primary d1) as [|p0 p1]; [apply foreign_plain; reflexivity|]. cbv zeta. unfold need at 1. match goal with |- foreign (match ?x with _ => _ end) => destruct x as [x2|e2] eqn:O2; [|exact (open_foreign _ _ _ O O2)] end.
  unfold parse_rels. destruct (end_err (xm_end x2)) as [e2|] eqn:E2; [exact (end_foreign _ _ _ _ O O2 E2)|].
  match goal with |- context [rels_loop ?b ?l d1] => assert (D2 : xd_zip (rels_loop b l d1) = z) by (rewrite rels_zip; exact D1); set (d2 := rels_loop b l d1) in *; clearbody d2 end.
  apply foreign_bind.
  { unfold need. destruct (open_xml z (xd_primary d2)) as [x3|e3] eqn:O3; [|exact (open_foreign _ _ _ O O3)]. unfold parse_workbook. apply foreign_bind; [apply workbook_foreign|]. intros d3 _. destruct (end_err (xm_end x3)) as [e3|] eqn:E3; [exact (end_foreign _ _ _ _ O O3 E3)|exact I]. }
  intros d3 W. assert (D3 : xd_zip d3 = z).
  { unfold need in W. destruct (open_xml z (xd_primary d2)) as [x3|]; [|discriminate]. unfold parse_workbook in W. destruct (workbook_loop (xm_toks x3) d2) as [d3'| | |] eqn:WL; cbn [bind] in W; try discriminate. destruct (end_err (xm_end x3)); [discriminate|]. injection W as <-. apply workbook_zip in WL. congruence. }
  apply foreign_bind.
  - apply (parts_foreign z parse_styles O); [|apply styles_zip|exact D3]. intros x d n E. unfold parse_styles. apply foreign_bind; [apply styles_foreign|]. intros st _. destruct (end_err (xm_end x)) as [e|] eqn:Q; [exact (end_foreign _ _ _ _ O E Q)|exact I].
  - intros d4 P. apply (parts_foreign z parse_shared O); [|apply shared_zip|].
    + intros x d n E. unfold parse_shared. destruct (end_err (xm_end x)) as [e|] eqn:Q; [exact (end_foreign _ _ _ _ O E Q)|exact I].
    + revert P. generalize (order (live_values [] (rels_of (xd_rels d3) rel_styles))). intros ns. revert d3 D3 W. induction ns as [|n ns IH]; intros d3 D3 W P; cbn [parse_parts] in P; [congruence|].
      unfold need in P. destruct (open_xml (xd_zip d3) n); [|discriminate]. destruct (parse_styles x d3) as [d5| | |] eqn:PS; cbn [bind] in P; try discriminate. apply styles_zip in PS. clear W. revert P. assert (D5 : xd_zip d5 = z) by congruence. clear - D5. revert d5 D5. induction ns as [|n ns IH]; intros d5 D5 P; cbn [parse_parts] in P; [congruence|].
      unfold need in P. destruct (open_xml (xd_zip d5) n); [|discriminate]. destruct (parse_styles x d5) as [d6| | |] eqn:PS; cbn [bind] in P; try discriminate. apply styles_zip in PS. eapply IH; [|exact P]. congruence.
Qed.

(** ** compound files that are left to the other readers *)
Lemma load_foreign : forall fuel data sp e, load fuel (mkSl data sp) = Err e -> on_chain ENotInFormat e -> ~ compound data.
Proof.
  intros fuel data sp e L C. destruct (load_err _ _ _ L) as [->|(n & ->)]; [apply not_compound, (C38_not_in_format fuel data sp); exact L|]. apply nif in C. discriminate.
Qed.
Theorem C107_left : forall sizes sp data, bytes_ok data -> (forall i, 0 < sizes i) ->
  (exists fuel e, xls_stream fuel sizes sp data None = Err e /\ on_chain ENotInFormat e) <-> left_by_xls data (data ++ sp).
Proof.
  intros sizes sp data B HZ. unfold xls_stream. split.
  - intros (fuel & e & H & C). destruct (load fuel (mkSl data sp)) as [d|e1| |] eqn:L; cbn [bind] in H; try discriminate.
    + right. destruct (doc_open fuel d (bs "Workbook")) as [r|e2| |] eqn:DO; cbn [bind] in H; try discriminate.
      * destruct (C106_stream _ _ _ _ _ _ sizes B HZ L DO) as (c & _ & R). congruence.
      * apply C107_lost; eauto.
    + left. injection H as ->. eapply load_foreign; eassumption.
  - intros [NC|SL].
    + exists 0%nat, ENotInFormat. rewrite (proj2 (C38_not_in_format 0 data sp) (proj1 (not_compound data) NC)). split; [reflexivity|]. apply nif. reflexivity.
    + apply C107_lost in SL; [|exact B]. destruct SL as (fuel & d & e & L & DO). exists fuel, (wrap_err [e; ENotInFormat]). rewrite L. cbn [bind]. rewrite DO. split; [reflexivity|]. apply nif. reflexivity.
Qed.

(** ** grate.Open *)
Section Which.
  Variable sizes : nat -> Z.
  Variables sp1 sp2 sp3 : bytes.
  Variable unzip : bytes -> xzip + gerr.
  Variable order : list gostr -> list gostr.
  Variable iter : list (Z * Z) -> list (Z * Z).
  Variable rd : bytes -> option gerr -> list (list gostr) * csv_end.
  Variable srt : list (src_open_tab osw source) -> list (src_open_tab osw source).
  Hypothesis HS : sorts_by_priority srt.
  Hypothesis HZ : forall i, 0 < sizes i.
  Variables (fn : gostr) (w : osw).
  (** a file is made of bytes, and a disk that cannot be read does not say "not in this format" *)
  Hypothesis HB : forall data re, os_file w fn = FileData data re -> bytes_ok data.
  Hypothesis HR : forall data e, os_file w fn = FileData data (Some e) -> ~ on_chain ENotInFormat e.
  Let opened fuel := open_file (registered srt (stock fuel sizes sp1 sp2 sp3 unzip order iter rd)) fn w.

  (** past the first reader: what is left to the others *)
  Lemma past_xls : forall fuel s w', opened fuel = (Ok s, w') -> (forall b, s <> SrcXls b) ->
    exists data, os_file w fn = FileData data None /\ left_by_xls data (data ++ sp1) /\
      (open_file [xlsx_entry unzip order; tsv_entry iter; csv_entry iter rd] fn (hold fn w)) = (Ok s, w').
  Proof.
    intros fuel s w' H NX. unfold opened in H. rewrite (stock_table fuel sizes sp1 sp2 sp3 unzip order iter rd srt _ HS (Permutation_refl _)) in H. unfold stock in H. cbn [open_file tab_op xls_entry] in H. unfold xls_open in H.
    destruct (os_file w fn) as [e|data re] eqn:F; [exfalso|].
    2: { destruct (xls_stream fuel sizes sp1 data re) as [raw|e| |] eqn:X; cbn [bind] in H; try discriminate.
      + pose proof (plain_workbook (mkSl raw sp2) sp3) as P. destruct (load_workbook (mkSl raw sp2) sp3) as [b|e| |]; cbn [bind] in H; try discriminate. { injection H as <- _. elim (NX b eq_refl). }
        cbn [plain] in P. rewrite P in H. discriminate.
      + destruct (errors_is e ENotInFormat) eqn:N; cbn [negb] in H; [|discriminate]. apply nif in N. destruct re as [e'|]; [injection X as ->; elim (HR _ _ eq_refl N)|].
        exists data. split; [reflexivity|]. split; [|exact H]. apply (C107_left sizes); eauto. }
    { destruct (negb (errors_is e ENotInFormat)); [discriminate|]. cbn [tab_op xlsx_entry] in H. unfold xlsx_open in H. rewrite F in H. destruct (negb (errors_is e ENotInFormat)); [discriminate|].
      cbn [tab_op tsv_entry] in H. unfold tsv_open in H. rewrite F in H. cbn [open_tsv bind] in H. destruct (negb (errors_is e ENotInFormat)); [discriminate|].
      cbn [tab_op csv_entry] in H. unfold csv_open in H. rewrite F in H. destruct (C06_csv_opens_refuted iter rd fn (FileErr e)) as (e'' & E''). rewrite E'' in H. cbn [bind] in H. destruct (negb (errors_is e'' ENotInFormat)); discriminate. }
  Qed.
  Lemma to_xlsx : forall data, os_file w fn = FileData data None -> left_by_xls data (data ++ sp1) ->
    exists fuel, opened fuel = open_file [xlsx_entry unzip order; tsv_entry iter; csv_entry iter rd] fn (hold fn w).
  Proof.
    intros data F LX. apply (C107_left sizes sp1 data (HB _ _ F) HZ) in LX. destruct LX as (fuel & e & X & C). exists fuel. unfold opened. rewrite (stock_table fuel sizes sp1 sp2 sp3 unzip order iter rd srt _ HS (Permutation_refl _)). unfold stock. cbn [open_file tab_op xls_entry]. unfold xls_open. rewrite F, X. cbn [bind].
    apply nif in C. rewrite C. reflexivity.
  Qed.

  (** Opened as an XLSX package: exactly the files that the XLS reader leaves, that are archives, and
      whose archive is a package. *)
  Theorem C107_opened_xlsx : (forall l, Permutation l (order l)) ->
    (exists fuel f o w', opened fuel = (Ok (SrcXlsx f o), w')) <->
    (exists data z, os_file w fn = FileData data None /\ left_by_xls data (data ++ sp1) /\ unzip data = inl z /\ is_package z).
  Proof.
    intros HO. split.
    - intros (fuel & f & o & w' & H). destruct (past_xls _ _ _ H ltac:(discriminate)) as (data & F & LX & K). cbn [open_file tab_op xlsx_entry] in K. unfold xlsx_open in K. change (os_file (hold fn w)) with (os_file w) in K. rewrite F in K.
      destruct (unzip data) as [z|ze] eqn:U.
      + exists data, z. repeat (split; [assumption || reflexivity|]). apply (C107_package order); [exact HO|]. destruct (open_xlsx order (XZip z)) as [d|e| |] eqn:OX; cbn [bind] in K; try discriminate; [eauto|exfalso].
        destruct (negb (errors_is e ENotInFormat)); [discriminate|]. cbn [tab_op tsv_entry] in K. unfold tsv_open in K. destruct (open_tsv iter fn _) as [t|e'| |]; cbn [bind] in K; try discriminate. destruct (negb (errors_is e' ENotInFormat)); [discriminate|].
        cbn [tab_op csv_entry] in K. unfold csv_open in K. destruct (C06_csv_opens_refuted iter rd fn (os_file (hold fn (hold fn w)) fn)) as (e'' & E''). rewrite E'' in K. cbn [bind] in K. destruct (negb (errors_is e'' ENotInFormat)); discriminate.
      + exfalso. cbn [open_xlsx bind] in K. change (negb (errors_is (wrap_err [ze; ENotInFormat]) ENotInFormat)) with false in K. cbv iota in K. cbn [tab_op tsv_entry] in K. unfold tsv_open in K. destruct (open_tsv iter fn _) as [t|e'| |]; cbn [bind] in K; try discriminate. destruct (negb (errors_is e' ENotInFormat)); [discriminate|].
        cbn [tab_op csv_entry] in K. unfold csv_open in K. destruct (C06_csv_opens_refuted iter rd fn (os_file (hold fn (hold fn w)) fn)) as (e'' & E''). rewrite E'' in K. cbn [bind] in K. destruct (negb (errors_is e'' ENotInFormat)); discriminate.
    - intros (data & z & F & LX & U & P). destruct (to_xlsx _ F LX) as (fuel & OP). apply (C107_package order z HO) in P. destruct P as (d & OX). exists fuel. rewrite OP. cbn [open_file tab_op xlsx_entry]. unfold xlsx_open. change (os_file (hold fn w)) with (os_file w). rewrite F, U, OX. cbn [bind]. eauto.
  Qed.
  (** Opened as text, exactly: the files that the XLS reader leaves, that are no archive or one
      without top relationships, and that read as text. *)
  Theorem C107_opened_text : any_order iter -> (forall data z, unzip data = inl z -> own_errors z) -> (forall data re, os_file w fn = FileData data re -> zlen data <= 2 ^ 50) ->
    forall t, (exists fuel w', opened fuel = (Ok (SrcSimple t), w')) <->
    (exists data rows, os_file w fn = FileData data None /\ left_by_xls data (data ++ sp1) /\ (forall z, unzip data = inl z -> no_package z) /\
      reads_as_text data rows /\ t = mkSimple fn rows (-1)).
  Proof.
    intros HI HO HL t. split.
    - intros (fuel & w' & H). destruct (past_xls _ _ _ H ltac:(discriminate)) as (data & F & LX & K). cbn [open_file tab_op xlsx_entry] in K. unfold xlsx_open in K. change (os_file (hold fn w)) with (os_file w) in K. rewrite F in K.
      assert (Q : (forall z, unzip data = inl z -> no_package z) /\ open_tsv iter fn (FileData data None) = Ok t).
      { match type of K with context [bind ?r _] => destruct r as [d|e| |] eqn:OX end; cbn [bind] in K; try discriminate. split.
        - intros z U. apply (C107_no_package order z (HO _ _ U)). exists e. rewrite U in OX. split; [exact OX|]. apply nif. destruct (errors_is e ENotInFormat); [reflexivity|discriminate].
        - destruct (negb (errors_is e ENotInFormat)); [discriminate|]. cbn [tab_op tsv_entry] in K. unfold tsv_open in K. change (os_file (hold fn (hold fn w))) with (os_file w) in K. rewrite F in K. destruct (open_tsv iter fn (FileData data None)) as [t'|e'| |]; cbn [bind] in K; try discriminate; [congruence|]. destruct (negb (errors_is e' ENotInFormat)); [discriminate|].
          cbn [tab_op csv_entry] in K. unfold csv_open in K. match type of K with context [open_csv iter rd fn ?f] => destruct (C06_csv_opens_refuted iter rd fn f) as (e'' & E'') end. rewrite E'' in K. cbn [bind] in K. destruct (negb (errors_is e'' ENotInFormat)); discriminate. }
      destruct Q as [Q1 Q2]. apply tsv_exact in Q2; [|exact HI|exact (HL _ _ F)]. destruct Q2 as (rows & R & ->). exists data, rows. auto.
    - intros (data & rows & F & LX & NP & R & ->). destruct (to_xlsx _ F LX) as (fuel & OP). exists fuel. rewrite OP. cbn [open_file tab_op xlsx_entry]. unfold xlsx_open. change (os_file (hold fn w)) with (os_file w). rewrite F.
      assert (T : open_tsv iter fn (FileData data None) = Ok (mkSimple fn rows (-1))) by (apply tsv_exact; eauto).
      assert (E : exists e, open_xlsx order (match unzip data with inl z => XZip z | inr e => XNotZip e end) = Err e /\ on_chain ENotInFormat e).
      { destruct (unzip data) as [z|ze] eqn:U; [apply C107_no_package; eauto|]. exists (wrap_err [ze; ENotInFormat]). split; [reflexivity|]. apply nif. reflexivity. }
      destruct E as (e & -> & C). apply nif in C. cbn [bind]. rewrite C. cbn [negb]. cbn [tab_op tsv_entry]. unfold tsv_open. change (os_file (hold fn (hold fn w))) with (os_file w). rewrite F, T. cbn [bind]. eauto.
  Qed.
End Which.

(** ** Examples *)
Lemma own_list : forall z, Forall (fun p => match snd p with inr e => errors_is e ENotInFormat | inl x => errors_is (xm_end x) ENotInFormat end = false) z -> own_errors z.
Proof.
  intros z F n. induction F as [|[m q] z H F IH]; cbn [open_xml]; [intros C; apply nif in C; discriminate|]. destruct (str_eqb m n); [|exact IH]. cbn [snd] in H. destruct q; intros C; apply nif in C; congruence.
Qed.
Definition noted_zip : xzip := [(bs "notes.txt", inr (ELeaf 5)); (bs "_rels/.rels", inl (mkXml (rel_of "r1" "officeDocument" "w.xml") (ELeaf 6)))].
Example ex_C107_zips : own_errors odd_zip /\ is_package odd_zip /\ own_errors noted_zip /\ no_package noted_zip.
Proof.
  split; [apply own_list; repeat constructor|]. split.
  - apply (C107_package (fun l => l)); [intros; apply Permutation_refl|]. exists odd_doc. apply ex_C87_opens.
  - split; [apply own_list; repeat constructor|]. intros top (x & O & _ & E). vm_compute in O. injection O as <-. discriminate.
Qed.
(** a workbook that was cut off is left to the other readers, and so is a text *)
Example ex_C107_left : left_by_xls exc_file exc_file /\ left_by_xls exr_file exr_file /\ left_by_xls (bs "a" ++ [9] ++ bs "b") (bs "a" ++ [9] ++ bs "b").
Proof.
  split; [|split].
  - right. replace (stream_lost exc_file exc_file) with (stream_lost exc_file (exc_file ++ [])) by (rewrite app_nil_r; reflexivity). apply C107_lost; [exact exc_bytes|]. exists 20%nat.
    destruct (load 20 (mkSl exc_file [])) as [d| | |] eqn:L; [|vm_compute in L; discriminate L..]. exists d. destruct (doc_open 20 d (bs "Workbook")) as [r|e| |] eqn:O; [|exists e; auto|..]; exfalso; revert O; vm_compute in L; injection L as <-; vm_compute; discriminate.
  - right. replace (stream_lost exr_file exr_file) with (stream_lost exr_file (exr_file ++ [])) by (rewrite app_nil_r; reflexivity). apply C107_lost; [exact exr_bytes|]. exists 20%nat.
    destruct (load 20 (mkSl exr_file [])) as [d| | |] eqn:L; [|vm_compute in L; discriminate L..]. exists d. destruct (doc_open 20 d (bs "Workbook")) as [r|e| |] eqn:O; [|exists e; auto|..]; exfalso; revert O; vm_compute in L; injection L as <-; vm_compute; discriminate.
  - left. intros (H & _). vm_compute in H. apply H. reflexivity.
Qed.
(** a disk with a cut-off workbook that ends in an archive, a text that ends in one, and a text *)
Definition exw_unzip (data : bytes) : xzip + gerr :=
  if zlen data =? zlen exc_file then inl odd_zip else if zlen data =? 4 then inl noted_zip else inr (ELeaf 3).
Definition exw_fs (fn : gostr) : gofile :=
  FileData (if str_eqb fn (bs "a") then exc_file else if str_eqb fn (bs "b") then bs "a" ++ [9] ++ bs "b" ++ [10] else if str_eqb fn (bs "c") then bs "x" ++ [9] ++ bs "y" else []) None.
Definition exw_open fn := fst (open_file (registered (@isort _ _) (stock 100 (fun _ => 100) [] [] [] exw_unzip (fun l => l) (fun l => l) exo_rd)) fn (mkOs exw_fs [])).
Example ex_C107_opens : (exists o, exw_open (bs "a") = Ok (SrcXlsx (bs "a") o)) /\ exw_open (bs "b") = Ok (SrcSimple (mkSimple (bs "b") [[bs "a"; bs "b"]] (-1))) /\
  exw_open (bs "c") = Ok (SrcSimple (mkSimple (bs "c") [[bs "x"; bs "y"]] (-1))) /\ (forall data z, exw_unzip data = inl z -> own_errors z) /\ exw_open (bs "d") = Ok (SrcSimple (mkSimple (bs "d") [] (-1))).
Proof.
  split; [eexists; vm_compute; reflexivity|]. split; [vm_compute; reflexivity|]. split; [vm_compute; reflexivity|]. split.
  - intros data z H. unfold exw_unzip in H. destruct (zlen data =? _); [injection H as <-; apply ex_C107_zips|]. destruct (zlen data =? 4); [injection H as <-; apply ex_C107_zips|discriminate].
  - vm_compute. reflexivity.
Qed.
Print Assumptions C107_no_package.
Print Assumptions C107_left.
Print Assumptions C107_opened_xlsx.
Print Assumptions C107_opened_text.

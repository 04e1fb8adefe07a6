(** * P_total: C84 — opening and reading ends, whatever the bytes of the file. *)
From Verif Require Import GoBase GoUnicode L_base M_grate S_grate L_grate P_grate M_simple P_simple M_slicereader M_cfb S_cfb L_cfb P_cfb M_biff S_biff M_xlstr M_cell M_sheet M_xls M_formats M_xlsx M_open S_open P_open L_total.
From Coq Require Import Lia ZifyBool ZifyNat Permutation.

(** ** XLSX *)
Lemma substr_ends : forall A (s : list A) a b, ends (substr s a b).
Proof. intros. unfold substr. ends_auto. Qed.
Global Hint Resolve substr_ends : ends.
Lemma ref_ends : forall r, ends (ref_to_indexes r).
Proof. intros. unfold ref_to_indexes. ends_auto. Qed.
Global Hint Resolve ref_ends put_ends : ends.
Lemma put_all_ends : forall l s, ends (put_all s l).
Proof. induction l as [|[[[r c] v] f] l IH]; intros; cbn [put_all]; ends_auto. Qed.
Lemma set_url_ends : forall s r c u, ends (set_url s r c u).
Proof. intros. unfold set_url, cell_set_url, get_cell, put_cell. ends_auto. Qed.
Global Hint Resolve put_all_ends set_url_ends : ends.
Lemma sheet_tok_ends : forall d links st t, ends (sheet_tok d links st t).
Proof.
  intros d links st [n a|n|v|]; cbn [sheet_tok]; ends_auto.
  - unfold sheet_dimension. ends_auto.
  - unfold sheet_c. ends_auto.
  - unfold sheet_merge. ends_auto.
  - unfold sheet_link. ends_auto.
  - unfold sheet_chars, cell_text_value. destruct (xp_cell st); ends_auto; match goal with |- ends (match ?p with _ => _ end) => destruct p; ends_auto end.
Qed.
Lemma sheet_toks_ends : forall l d links st, ends (sheet_toks d links l st).
Proof. induction l; intros; cbn [sheet_toks]; [discriminate|]. apply ends_bind; [apply sheet_tok_ends|]. auto. Qed.
Lemma doc_get_ends : forall o name, ends (doc_get o name).
Proof.
  intros. unfold doc_get. ends_auto. destruct (find_sheet _ _ _) as [[i s]|]; ends_auto. destruct (xh_err s); ends_auto.
  unfold parse_xsheet. destruct (open_xml _ _); ends_auto. apply sheet_toks_ends.
Qed.
Lemma workbook_loop_ends : forall l d, ends (workbook_loop l d).
Proof. induction l as [|[n a|n|v|] l IH]; intros; cbn [workbook_loop]; ends_auto. destruct (map_attr a (bs "id")), (map_attr a (bs "name")); ends_auto. Qed.
Lemma parse_workbook_ends : forall x d, ends (parse_workbook x d).
Proof. intros. unfold parse_workbook. pose proof workbook_loop_ends. ends_auto. destruct (end_err _); ends_auto. Qed.
Lemma styles_loop_ends : forall l st, ends (styles_loop l st).
Proof. induction l as [|[n a|n|v|] l IH]; intros; cbn [styles_loop]; ends_auto. unfold style_start, style_xf. ends_auto. Qed.
Lemma parse_styles_ends : forall x d, ends (parse_styles x d).
Proof. intros. unfold parse_styles. pose proof styles_loop_ends. ends_auto. destruct (end_err _); ends_auto. Qed.
Lemma parse_shared_ends : forall x d, ends (parse_shared x d).
Proof. intros. unfold parse_shared. ends_auto. destruct (end_err _); ends_auto. Qed.
Lemma parse_parts_ends : forall f l d, (forall x d, ends (f x d)) -> ends (parse_parts f l d).
Proof. intros f l. induction l; intros d H; cbn [parse_parts]; ends_auto. unfold need. destruct (open_xml _ _); ends_auto. Qed.
Lemma open_doc_ends : forall order z, ends (open_doc order z).
Proof.
  intros. unfold open_doc. destruct (open_xml _ _); [|discriminate]. destruct (parse_rels _ _ _) as [d e]. destruct e; [discriminate|].
  destruct (xd_primary d); [discriminate|]. cbv zeta. unfold need at 1. destruct (open_xml _ _); [|discriminate]. destruct (parse_rels _ _ _) as [d2 e]. destruct e; [discriminate|].
  apply ends_bind; [unfold need; destruct (open_xml _ _); [apply parse_workbook_ends|discriminate]|]. intros.
  apply ends_bind; [apply parse_parts_ends, parse_styles_ends|]. intros. apply parse_parts_ends, parse_shared_ends.
Qed.
Lemma open_xlsx_ends : forall order f, ends (open_xlsx order f).
Proof. intros order [e|e|z]; cbn [open_xlsx]; [discriminate|discriminate|apply open_doc_ends]. Qed.
Lemma open_tsv_ends : forall iter fn f, ends (open_tsv iter fn f).
Proof. intros iter fn [e|c re]; cbn [open_tsv]; [discriminate|]. ends_auto. unfold scan_lines. ends_auto. destruct re; discriminate. Qed.
Lemma open_csv_ends : forall iter rd fn f, ends (open_csv iter rd fn f).
Proof. intros. destruct (C06_csv_opens_refuted iter rd fn f) as (e & ->). discriminate. Qed.

(** ** the stream of an XLS file *)
Definition difat_ends (data : bytes) : Prop :=
  s32 (field data 72 4) <= 0 \/ difat_stops data (2 ^ field data 30 2) (field data 68 4).
Lemma xls_stream_decided : forall sizes sp data re, bytes_ok data -> (re = None -> exists N, load N (mkSl data sp) <> NoFuel) ->
  exists N r, r <> NoFuel /\ forall fuel, (N <= fuel)%nat -> xls_stream fuel sizes sp data re = r.
Proof.
  intros sizes sp data re B D. destruct re as [e|]; [exists O, (Err e); split; [discriminate|reflexivity]|].
  destruct (D eq_refl) as (N1 & H1).
  destruct (load N1 (mkSl data sp)) as [d|e| |] eqn:EL.
  2: { exists N1, (Err e). split; [discriminate|]. intros fuel F. unfold xls_stream. rewrite (load_mono N1 fuel) by (auto; rewrite EL; discriminate). rewrite EL. reflexivity. }
  2: { exists N1, Panic. split; [discriminate|]. intros fuel F. unfold xls_stream. rewrite (load_mono N1 fuel) by (auto; rewrite EL; discriminate). rewrite EL. reflexivity. }
  2: { elim H1. reflexivity. }
  destruct (C36_terminates_loaded N1 (mkSl data sp) d (bs "Workbook") B EL) as (N2 & H2). specialize (H2 N2 (le_n _)).
  set (o := doc_open N2 d (bs "Workbook")) in *.
  exists (Nat.max N1 N2), (r <- match o with Err e => Err (wrap_err [e; ENotInFormat]) | x => x end ;; sr_read_all (S (List.length (concat (sr_data r)))) sizes r []).
  split.
  - destruct o as [r|e| |] eqn:EO; cbn [bind]; try discriminate; [|elim H2; reflexivity].
    unfold o in EO. destruct (doc_open_new _ _ _ _ EO) as (sd & ->). apply read_new_ends.
  - intros fuel F. unfold xls_stream. rewrite (load_mono N1 fuel) by (try lia; rewrite EL; discriminate). rewrite EL. cbn [bind].
    rewrite (doc_open_mono N2 fuel) by (try lia; exact H2). fold o. destruct o; reflexivity.
Qed.

Lemma open_ends : forall sizes sp1 sp2 sp3 unzip order iter rd srt fn w,
  sorts_by_priority srt ->
  (forall data re, os_file w fn = FileData data re -> bytes_ok data /\ (re = None -> exists N, load N (mkSl data sp1) <> NoFuel)) ->
  exists N r w', r <> NoFuel /\ forall fuel hist, (N <= fuel)%nat -> Permutation hist (stock fuel sizes sp1 sp2 sp3 unzip order iter rd) ->
    open_file (registered srt hist) fn w = (r, w').
Proof.
  intros sizes sp1 sp2 sp3 unzip order iter rd srt fn w HS HF.
  assert (X : exists N r1 w1, r1 <> NoFuel /\ forall fuel, (N <= fuel)%nat -> xls_open fuel sizes sp1 sp2 sp3 fn w = (r1, w1)).
  { unfold xls_open. destruct (os_file w fn) as [e|data re] eqn:E; [exists O, (Err e), w; split; [discriminate|reflexivity]|].
    destruct (HF data re eq_refl) as [B D]. destruct (xls_stream_decided sizes sp1 data re B D) as (N & r & R1 & R2).
    exists N, (raw <- r ;; b <- load_workbook (mkSl raw sp2) sp3 ;; Ok (SrcXls b)), (hold fn w). split.
    - change (ends (raw <- r ;; b <- load_workbook (mkSl raw sp2) sp3 ;; Ok (SrcXls b))). apply ends_bind; [exact R1|]. intros. apply ends_bind; [apply load_workbook_ends|]. intros. discriminate.
    - intros fuel F. rewrite R2 by auto. reflexivity. }
  destruct X as (N & r1 & w1 & R1 & R2).
  set (t := mkTab (bs "xls") 1 (fun _ _ => (r1, w1)) : src_open_tab osw source).
  destruct (open_file (t :: [xlsx_entry unzip order; tsv_entry iter; csv_entry iter rd]) fn w) as [r w'] eqn:EO. exists N, r, w'. split.
  - assert (ends r); [|auto]. replace r with (fst (open_file (t :: [xlsx_entry unzip order; tsv_entry iter; csv_entry iter rd]) fn w)) by (rewrite EO; reflexivity). clear EO r w'.
    subst t. cbn [open_file tab_op]. destruct r1 as [s|e| |]; try discriminate; [|elim R1; reflexivity]. destruct (negb _); [discriminate|].
    cbn [xlsx_entry tab_op]. unfold xlsx_open. destruct (os_file w1 fn) as [e1|c1 re1].
    + destruct (negb _); [discriminate|]. cbn [tsv_entry tab_op]. unfold tsv_open.
      pose proof (open_tsv_ends iter fn (os_file w1 fn)). destruct (open_tsv _ _ _); cbn [bind]; try discriminate; [|elim H; reflexivity]. destruct (negb _); [discriminate|].
      cbn [csv_entry tab_op]. unfold csv_open. pose proof (open_csv_ends iter rd fn (os_file w1 fn)). destruct (open_csv _ _ _ _); cbn [bind]; try discriminate; [|elim H0; reflexivity]. destruct (negb _); discriminate.
    + pose proof (open_xlsx_ends order (match unzip c1 with inl z => XZip z | inr e => XNotZip e end)) as HX. destruct (open_xlsx _ _); cbn [bind]; try discriminate; [|elim HX; reflexivity]. destruct (negb _); [discriminate|].
      cbn [tsv_entry tab_op]. unfold tsv_open.
      pose proof (open_tsv_ends iter fn (os_file (hold fn w1) fn)). destruct (open_tsv _ _ _); cbn [bind]; try discriminate; [|elim H; reflexivity]. destruct (negb _); [discriminate|].
      cbn [csv_entry tab_op]. unfold csv_open. pose proof (open_csv_ends iter rd fn (os_file (hold fn w1) fn)). destruct (open_csv _ _ _ _); cbn [bind]; try discriminate; [|elim H0; reflexivity]. destruct (negb _); discriminate.
  - intros fuel hist F HP. rewrite (stock_table fuel sizes sp1 sp2 sp3 unzip order iter rd srt hist HS HP). unfold stock. rewrite <- EO. cbn [open_file xls_entry tab_op]. rewrite R2 by auto. reflexivity.
Qed.
(** ** C84 *)
(** Opening a file by name ends with a source, an error or a panic, whatever its bytes, unless its
    chain of DIFAT sectors is endless: the number of steps the loops need is finite (from [N] on
    the bound plays no role any more).  Missing for the full claim: the endless chains, for which
    it is false (below). *)
Lemma open_ends_without_difat : forall sizes sp1 sp2 sp3 unzip order iter rd srt fn w,
  sorts_by_priority srt ->
  (forall data re, os_file w fn = FileData data re -> bytes_ok data /\ difat_ends data) ->
  exists N r w', r <> NoFuel /\ forall fuel hist, (N <= fuel)%nat -> Permutation hist (stock fuel sizes sp1 sp2 sp3 unzip order iter rd) ->
    open_file (registered srt hist) fn w = (r, w').
Proof.
  intros sizes sp1 sp2 sp3 unzip order iter rd srt fn w HS HF. apply open_ends; auto. intros data re E. destruct (HF data re E) as [B D]. split; auto.
  intros _. destruct (no_difat_loads data sp1 D) as (N & H). exists N. apply H. lia.
Qed.
(** A file with an endless chain: opening never ends, however many steps are allowed. *)
Theorem C84_endless_refuted : forall sizes sp1 sp2 sp3 unzip order iter rd srt fn w, sorts_by_priority srt ->
  os_file w fn = FileData cyclic_difat_file None ->
  forall fuel hist, Permutation hist (stock fuel sizes sp1 sp2 sp3 unzip order iter rd) -> fst (open_file (registered srt hist) fn w) = NoFuel.
Proof.
  intros sizes sp1 sp2 sp3 unzip order iter rd srt fn w HS HW fuel hist HP. rewrite (stock_table fuel sizes sp1 sp2 sp3 unzip order iter rd srt hist HS HP).
  unfold stock. cbn [open_file xls_entry tab_op]. unfold xls_open. rewrite HW. unfold xls_stream. rewrite (proj2 (proj2 (C39_cyclic_difat_refuted sp1 fuel))). reflexivity.
Qed.
(** The workbook stream itself always ends: any bytes whatever, encrypted or not, whole records or
    cut ones, valid or not. *)
Theorem C84_workbook_ends : forall raw sp2, load_workbook raw sp2 <> NoFuel.
Proof. exact load_workbook_ends. Qed.
(** So does getting a sheet, of any name, from any workbook — also one no file can produce. *)
Theorem C84_get_ends : (forall w name, wb_get w name <> NoFuel) /\ (forall o name, doc_get o name <> NoFuel).
Proof. split; [exact wb_get_ends|exact doc_get_ends]. Qed.

(** ** examples *)
(** files that meet the condition: the compound file of ex_C74, any text, a chain of one DIFAT
    sector, and one that points outside the file *)
Definition one_difat (next : Z) : bytes :=
  hdr_bytes 3 0 ENDOFCHAIN ENDOFCHAIN 0 0 1 [] ++ flat_map put32 (repeat FREESECT 127) ++ put32 next.
Example ex_C84_files : difat_ends exo_file /\ difat_ends (bs "a,b") /\ difat_ends (one_difat ENDOFCHAIN) /\ difat_ends (one_difat 7) /\ one_difat 0 = cyclic_difat_file.
Proof.
  split; [left; vm_compute; discriminate|]. split; [left; vm_compute; discriminate|].
  split; [right; apply stop_step; change (difat_stops (one_difat ENDOFCHAIN) 512 ENDOFCHAIN); apply stop_end|].
  split; [right; apply stop_step; change (difat_stops (one_difat 7) 512 7); apply stop_out; vm_compute; reflexivity|]. reflexivity.
Qed.
(** a BOF record that promises more than there is, a record of size 65535 in a stream of 6 bytes,
    the empty stream: an error or a panic at once *)
Example ex_C84_streams :
  load_workbook (mkSl [] []) [] <> NoFuel /\
  (exists e, load_workbook (mkSl ([9; 8; 16; 0] ++ repeat 0 3) []) [] = Err e) /\
  (exists e, load_workbook (mkSl [9; 8; 255; 255; 1; 2] []) [] = Err e).
Proof. split; [apply C84_workbook_ends|]. split; eexists; vm_compute; reflexivity. Qed.

Print Assumptions open_ends_without_difat.
Print Assumptions C84_endless_refuted.
Print Assumptions C84_workbook_ends.
Print Assumptions C84_get_ends.

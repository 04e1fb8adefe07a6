(** * P_cfbfile: C106 for whole files: from the bytes of any file that opens as an XLS workbook to
    the grid of a sheet. *)
From Verif Require Import GoBase GoFloat GoUnicode L_base M_value M_fmt M_cell M_grate S_grate L_grate P_grate M_slicereader M_cfb S_cfb L_cfb P_cfb M_biff M_sheet S_sheet S_grid S_hlink M_xlstr M_xls S_xls S_biff L_biff P_biff S_robust S_says P_says P_saysfile M_formats M_open M_simple M_xlsx S_open P_open S_cfbsays P_cfbsays P_cfbopens.
From Coq Require Import Lia ZifyBool ZifyNat Permutation.
Local Opaque put set_value fx_add.

Section Any.
  Variables (fuel : nat) (sizes : nat -> Z) (sp1 sp2 sp3 : bytes).
  Variable unzip : bytes -> xzip + gerr.
  Variable order : list gostr -> list gostr.
  Variable iter : list (Z * Z) -> list (Z * Z).
  Variable rd : bytes -> option gerr -> list (list gostr) * csv_end.
  Hypothesis HZ : forall i, 0 < sizes i.

  Lemma content_bytes : forall data mem name c, bytes_ok mem -> stream_content data mem name c -> bytes_ok c.
  Proof.
    intros data mem name c B (fats & mini & e & _ & _ & _ & H). cbv zeta in H.
    assert (BB : forall f (l : list Z), (forall s, bytes_ok (f s)) -> bytes_ok (concat (map f l))).
    { intros f l F. induction l as [|s l IH]; [constructor|]. cbn [map concat]. apply bytes_ok_app. auto. }
    destruct (_ <? 4096).
    - destruct H as (roots & l & _ & _ & _ & _ & _ & _ & ->). apply bytes_ok_ztake, BB. intros s. apply bytes_ok_ztake, bytes_ok_zdrop, BB. intros q. apply bytes_ok_ztake, bytes_ok_zdrop, B.
    - destruct H as (l & _ & _ & _ & ->). apply bytes_ok_ztake, BB. intros s. apply bytes_ok_ztake, bytes_ok_zdrop, B.
  Qed.
  Lemma stream_any : forall data raw, bytes_ok data -> xls_stream fuel sizes sp1 data None = Ok raw -> stream_content data (data ++ sp1) (bs "Workbook") raw.
  Proof.
    intros data raw B H. unfold xls_stream in H. destruct (load fuel (mkSl data sp1)) as [d| | |] eqn:L; cbn [bind] in H; try discriminate. destruct (doc_open fuel d (bs "Workbook")) as [r| | |] eqn:O; cbn [bind] in H; try discriminate.
    destruct (C106_stream _ _ _ _ _ _ sizes B HZ L O) as (c & P & R). rewrite R in H. injection H as <-. exact P.
  Qed.
  Lemma open_stream : forall srt hist fn w b w', sorts_by_priority srt -> Permutation hist (stock fuel sizes sp1 sp2 sp3 unzip order iter rd) ->
    open_file (registered srt hist) fn w = (Ok (SrcXls b), w') ->
    exists data raw, os_file w fn = FileData data None /\ xls_stream fuel sizes sp1 data None = Ok raw /\ load_workbook (mkSl raw sp2) sp3 = Ok b.
  Proof.
    intros srt hist fn w b w' HS HP H. rewrite (stock_table fuel sizes sp1 sp2 sp3 unzip order iter rd srt hist HS HP) in H. unfold stock in H. cbn [open_file tab_op xls_entry xlsx_entry tsv_entry csv_entry] in H.
    destruct (xls_open fuel sizes sp1 sp2 sp3 fn w) as [r1 w1] eqn:E1. destruct r1 as [s|e| |]; try discriminate.
    - injection H as -> _. unfold xls_open in E1. destruct (os_file w fn) as [e|data re] eqn:F; [discriminate|]. destruct re as [e|]; [discriminate|]. apply (f_equal fst) in E1. cbn [fst] in E1.
      destruct (xls_stream fuel sizes sp1 data None) as [raw| | |] eqn:X; cbn [bind] in E1; try discriminate. destruct (load_workbook _ _) as [b'| | |] eqn:LW; cbn [bind] in E1; try discriminate. injection E1 as ->.
      exists data, raw. split; [reflexivity|]. auto.
    - exfalso. destruct (negb _) in H; [discriminate|]. destruct (xlsx_open unzip order fn w1) as [r2 w2] eqn:E2. destruct r2 as [s2|e2| |]; try discriminate.
      + injection H as -> _. unfold xlsx_open in E2. destruct (os_file w1 fn); [discriminate|]. injection E2 as E2 _. destruct (open_xlsx _ _); cbn [bind] in E2; discriminate.
      + destruct (negb _) in H; [discriminate|]. destruct (tsv_open iter fn w2) as [r3 w3] eqn:E3. destruct r3 as [s3|e3| |]; try discriminate.
        * injection H as -> _. unfold tsv_open in E3. injection E3 as E3 _. destruct (open_tsv _ _ _); cbn [bind] in E3; discriminate.
        * destruct (negb _) in H; [discriminate|]. destruct (csv_open iter rd fn w3) as [r4 w4] eqn:E4. destruct r4 as [s4|e4| |]; try discriminate.
          -- injection H as -> _. unfold csv_open in E4. injection E4 as E4 _. destruct (open_csv _ _ _ _); cbn [bind] in E4; discriminate.
          -- destruct (negb _) in H; discriminate.
  Qed.
  (** grate.Open of a file, whatever its bytes: if it gives an XLS workbook, that workbook was
      loaded from the content the tables of the file lead to for the stream "Workbook". *)
  Theorem C106_open : forall srt hist fn w b w', sorts_by_priority srt -> Permutation hist (stock fuel sizes sp1 sp2 sp3 unzip order iter rd) ->
    (forall data re, os_file w fn = FileData data re -> bytes_ok data) ->
    open_file (registered srt hist) fn w = (Ok (SrcXls b), w') ->
    exists data raw, os_file w fn = FileData data None /\ stream_content data (data ++ sp1) (bs "Workbook") raw /\ load_workbook (mkSl raw sp2) sp3 = Ok b.
  Proof.
    intros srt hist fn w b w' HS HP BD H. destruct (open_stream srt hist fn w b w' HS HP H) as (data & raw & F & X & LW). exists data, raw. split; [exact F|]. split; [|exact LW]. apply stream_any; [|exact X]. eapply BD. exact F.
  Qed.
  (** and Get of a sheet: what it shows are the records of that content that are about it *)
  Theorem C106_sheet : forall srt hist fn w b w' name s, sorts_by_priority srt -> Permutation hist (stock fuel sizes sp1 sp2 sp3 unzip order iter rd) ->
    (forall data re, os_file w fn = FileData data re -> bytes_ok data) -> bytes_ok sp1 -> bytes_ok sp2 -> bytes_ok sp3 ->
    open_file (registered srt hist) fn w = (Ok (SrcXls b), w') -> wb_get b name = Ok (Some s) ->
    let gs := map (map L_biff.payload) (wb_streams b) in
    exists data raw plain tail pos hidden kind l n,
      os_file w fn = FileData data None /\ stream_content data (data ++ sp1) (bs "Workbook") raw /\
      plain_of (mkSl raw sp2) plain (concat gs) /\ plain = stream (concat gs) ++ tail /\ zlen tail < 4 /\
      find (fun e => str_eqb (snd e) name) (map sheet_entry (of_type 133 (concat (wb_streams b)))) = Some (pos, hidden, kind, name) /\
      nth_error (wb_streams b) n = Some l /\ (pos = offset gs n \/ n = 0%nat /\ forall m, (m < List.length gs)%nat -> pos <> offset gs m) /\
      (plain_dimension l -> displays (wb_fx b) (sheet_says link_of (wb_strings b) (wb_xfs b) l) (fst (declared l)) (snd (declared l)) s).
  Proof.
    intros srt hist fn w b w' name s HS HP BD B1 B2 B3 H G gs. destruct (C106_open srt hist fn w b w' HS HP BD H) as (data & raw & F & P & LW).
    assert (BR : bytes_ok raw) by (eapply content_bytes; [|exact P]; apply bytes_ok_app; split; [eapply BD; exact F|exact B1]).
    destruct (C104_stream (mkSl raw sp2) sp3 b BR B2 B3 LW) as (plain & tail & Q1 & Q2 & Q3 & _). fold gs in Q1, Q2. destruct (C104_file (mkSl raw sp2) sp3 b name s BR B2 B3 LW G) as (pos & hidden & kind & l & n & R1 & R2 & R3 & R4). fold gs in R3.
    exists data, raw, plain, tail, pos, hidden, kind, l, n. repeat (split; [assumption|]). intros PD. exact (proj1 (R4 PD)).
  Qed.
End Any.

(** Which files grate.Open opens as XLS workbooks, in terms of their bytes: those that it takes for
    compound files, whose tables lead to a content for the stream "Workbook" with names before it
    that can be looked at, and whose content is loaded as a workbook. *)
Theorem C106_exact_open : forall sizes sp1 sp2 sp3 unzip order iter rd srt fn w b, (forall i, 0 < sizes i) -> sorts_by_priority srt ->
  (forall data re, os_file w fn = FileData data re -> bytes_ok data) ->
  (exists fuel w', open_file (registered srt (stock fuel sizes sp1 sp2 sp3 unzip order iter rd)) fn w = (Ok (SrcXls b), w')) <->
  (exists data raw, os_file w fn = FileData data None /\ accepted data /\ readable_upto data (bs "Workbook") /\
    stream_content data (data ++ sp1) (bs "Workbook") raw /\ load_workbook (mkSl raw sp2) sp3 = Ok b).
Proof.
  intros sizes sp1 sp2 sp3 unzip order iter rd srt fn w b HZ HS BD. split.
  - intros (fuel & w' & H). destruct (open_stream fuel sizes sp1 sp2 sp3 unzip order iter rd srt _ fn w b w' HS (Permutation_refl _) H) as (data & raw & F & X & LW). exists data, raw. split; [exact F|]. pose proof (BD _ _ F) as B. unfold xls_stream in X.
    destruct (load fuel (mkSl data sp1)) as [d| | |] eqn:L; cbn [bind] in X; try discriminate. destruct (doc_open fuel d (bs "Workbook")) as [r| | |] eqn:O; cbn [bind] in X; try discriminate.
    destruct (proj1 (C106_exact data sp1 (bs "Workbook") raw sizes B HZ)) as (A1 & A2 & A3); [exists fuel, d, r; auto|]. auto.
  - intros (data & raw & F & A1 & A2 & A3 & LW). destruct (proj2 (C106_exact data sp1 (bs "Workbook") raw sizes (BD _ _ F) HZ) (conj A1 (conj A2 A3))) as (fuel & d & r & L & O & R).
    exists fuel. eexists. rewrite (stock_table fuel sizes sp1 sp2 sp3 unzip order iter rd srt _ HS (Permutation_refl _)). unfold stock. cbn [open_file tab_op xls_entry]. unfold xls_open. rewrite F. unfold xls_stream. rewrite L. cbn [bind]. rewrite O. cbn [bind]. rewrite R. cbn [bind]. rewrite LW. reflexivity.
Qed.

(** An odd file that opens: one sector is FAT and mini FAT at the same time, two entries of the
    directory are roots (the last one counts), the mini sectors are in disorder, and the workbook is
    the odd one of C104. *)
Definition exs_table : list Z := [4294967293; 7; ENDOFCHAIN; FREESECT; 0; 3; 4; 5] ++ repeat FREESECT 120.
Definition exs_file : bytes :=
  hdr_bytes 3 1 1 0 1 ENDOFCHAIN 0 [0] ++ flat_map put32 exs_table ++
  (ex_entry ex_root 5 77 9000 ++ ex_entry (bs "Workbook") 2 1 (zlen ex_odd) ++ ex_entry ex_root 5 2 512 ++ repeat 0 128) ++
  flat_map (fun k => ztake 64 (zdrop (64 * k) (ex_odd ++ repeat 0 512))) [6; 0; 7; 3; 5; 2; 4; 1].
Lemma exs_bytes : bytes_ok exs_file.
Proof.
  assert (F : forallb (fun b => (0 <=? b) && (b <? 256)) exs_file = true) by (vm_compute; reflexivity).
  apply Forall_forall. intros x Hx. rewrite forallb_forall in F. specialize (F x Hx). lia.
Qed.
Definition exs_fs (fn : gostr) : gofile := FileData exs_file None.
Example ex_C106_opens : exists b, xls_open 100 (fun _ => 100) [] [] [] (bs "x.xls") (mkOs exs_fs []) = (Ok (SrcXls b), mkOs exs_fs [bs "x.xls"]) /\ M_xls.wb_list b = [bs "S"] /\ exists s, wb_get b (bs "S") = Ok (Some s).
Proof. exists ex_odd_wb. split; [vm_compute; reflexivity|]. split; [vm_compute; reflexivity|]. eexists. vm_compute. reflexivity. Qed.
(** the content its tables lead to is the one and only *)
Example ex_C106 : forall c, stream_content exs_file exs_file (bs "Workbook") c <-> c = ex_odd.
Proof.
  assert (P : stream_content exs_file (exs_file ++ []) (bs "Workbook") ex_odd).
  { apply (stream_any 100 (fun _ => 100) [] ltac:(intros; lia)); [apply exs_bytes|]. vm_compute. reflexivity. }
  rewrite app_nil_r in P. intros c. split; [intros Q; exact (C106_one_content _ _ _ _ _ Q P)|intros ->; exact P].
Qed.

(** and it meets the conditions for being opened; the same file with an entry without a name in
    front is taken for a compound file but Open panics *)
Example ex_C106_exact : accepted exs_file /\ readable_upto exs_file (bs "Workbook").
Proof.
  destruct (proj1 (C106_exact exs_file [] (bs "Workbook") ex_odd (fun _ => 100) exs_bytes ltac:(intros; lia))) as (A & B & _); [|split; assumption].
  assert (E : xls_stream 100 (fun _ => 100) [] exs_file None = Ok ex_odd) by (vm_compute; reflexivity). unfold xls_stream in E.
  destruct (load 100 (mkSl exs_file [])) as [d| | |] eqn:L; cbn [bind] in E; try discriminate E. destruct (doc_open 100 d (bs "Workbook")) as [r| | |] eqn:O; cbn [bind] in E; try discriminate E. exists 100%nat, d, r. split; [exact L|]. split; [exact O|exact E].
Qed.
Definition exs_nameless : bytes := ztake 1088 exs_file ++ 0 :: zdrop 1089 exs_file.
Example ex_C106_nameless : (d <- load 100 (mkSl exs_nameless []) ;; Ok (List.length (d_dir d))) = Ok 3%nat /\ (d <- load 100 (mkSl exs_nameless []) ;; doc_open 100 d (bs "Workbook")) = Panic.
Proof. split; vm_compute; reflexivity. Qed.

Print Assumptions C106_open.
Print Assumptions C106_sheet.
Print Assumptions C106_exact_open.

(** * P_fault: C111 — grate.Open when reads fail or the file changes while it is opened. *)
From Verif Require Import GoBase GoUnicode M_simple GoPath L_base M_grate S_grate L_grate P_grate M_slicereader S_simple L_simple P_simple M_cfb S_cfb L_cfb P_cfb M_biff M_fmt M_formats M_sheet M_xls M_xlsx S_cell S_xlsx L_xlsxpkg S_sheet S_xrobust P_xrobust S_xsays P_xsays P_xsaysfile S_open M_open P_open P_refuse S_cfbsays P_cfbsays P_cfbopens P_cfbfile L_plain S_which P_which P_lost P_whichfile M_fault S_fault.
From Coq Require Import Lia ZifyBool ZifyNat Permutation.
Local Opaque fx_add path_join path_base trim_suffix parse_int.

Section Fault.
  Variable sizes : nat -> Z.
  Variables sp1 sp2 sp3 : bytes.
  Variable order : list gostr -> list gostr.
  Variable iter : list (Z * Z) -> list (Z * Z).
  Variable rd : bytes -> option gerr -> list (list gostr) * csv_end.
  Variable srt : list (src_open_tab fworld source) -> list (src_open_tab fworld source).
  Hypothesis HS : sorts_by_priority srt.
  Hypothesis HZ : forall i, 0 < sizes i.
  Hypothesis HO : forall l, Permutation l (order l).
  Hypothesis HI : any_order iter.
  (** whatever the order of the four Register calls *)
  Variable regs : nat -> (nat -> view) -> list (src_open_tab fworld source).
  Hypothesis HRegs : forall fuel hist, Permutation (regs fuel hist) (timed_stock fuel sizes sp1 sp2 sp3 order iter rd hist).
  Variable fn : gostr.
  Let opened fuel hist := fst (open_file (registered srt (regs fuel hist)) fn (0%nat, [])).

  Lemma timed_table : forall fuel hist, registered srt (regs fuel hist) = timed_stock fuel sizes sp1 sp2 sp3 order iter rd hist.
  Proof.
    intros fuel hist. destruct (registered_spec srt (regs fuel hist) HS) as [P1 S1].
    symmetry. apply sorted_unique; auto.
    - apply Permutation_sym. eapply Permutation_trans; [apply Permutation_sym; exact P1|apply HRegs].
    - simpl. repeat constructor; simpl; intuition discriminate.
    - repeat constructor; unfold by_pri; simpl; lia.
  Qed.

  (** the first answer that is not "not in this format" *)
  Fixpoint chain (l : list (res source)) : res source :=
    match l with
    | [] => Err EUnknownFormat
    | Err e :: l => if errors_is e ENotInFormat then chain l else Err e
    | r :: _ => r
    end.
  Definition ans_xls fuel (v : view) : res source :=
    match v_file v with
    | FileErr e => Err e
    | FileData c re => raw <- xls_stream fuel sizes sp1 c re ;; b <- load_workbook (mkSl raw sp2) sp3 ;; Ok (SrcXls b)
    end.
  Definition ans_xlsx (v : view) : res source :=
    match v_file v with
    | FileErr e => Err e
    | FileData _ _ => d <- open_xlsx order (match v_zip v with inl z => XZip z | inr e => XNotZip e end) ;; Ok (SrcXlsx fn (mkXO d false))
    end.
  Definition ans_tsv (v : view) : res source := t <- open_tsv iter fn (v_file v) ;; Ok (SrcSimple t).
  Definition ans_csv (v : view) : res source := t <- open_csv iter rd fn (v_file v) ;; Ok (SrcSimple t).

  Lemma opened_chain : forall fuel hist,
    opened fuel hist = chain [ans_xls fuel (hist 0%nat); ans_xlsx (hist 1%nat); ans_tsv (hist 2%nat); ans_csv (hist 3%nat)].
  Proof.
    intros fuel hist. unfold opened. rewrite timed_table. unfold timed_stock.
    assert (X0 : forall n h, exists h', timed hist (fun _ => xls_open fuel sizes sp1 sp2 sp3) fn (n, h) = (ans_xls fuel (hist n), (S n, h'))).
    { intros n h. unfold timed, xls_open, ans_xls. cbn [fst snd os_file]. destruct (v_file (hist n)); eauto. }
    assert (X1 : forall n h, exists h', timed hist (fun unzip => xlsx_open unzip order) fn (n, h) = (ans_xlsx (hist n), (S n, h'))).
    { intros n h. unfold timed, xlsx_open, ans_xlsx. cbn [fst snd os_file]. destruct (v_file (hist n)); eauto. }
    assert (X2 : forall n h, exists h', timed hist (fun _ => tsv_open iter) fn (n, h) = (ans_tsv (hist n), (S n, h'))).
    { intros n h. unfold timed, tsv_open, ans_tsv. cbn [fst snd os_file]. eauto. }
    assert (X3 : forall n h, exists h', timed hist (fun _ => csv_open iter rd) fn (n, h) = (ans_csv (hist n), (S n, h'))).
    { intros n h. unfold timed, csv_open, ans_csv. cbn [fst snd os_file]. eauto. }
    cbn [open_file tab_op chain]. destruct (X0 0%nat []) as (h0 & ->). destruct (ans_xls fuel (hist 0%nat)) as [s|e| |]; try reflexivity.
    destruct (errors_is e ENotInFormat); [|reflexivity]. cbn [negb]. destruct (X1 1%nat h0) as (h1 & ->). destruct (ans_xlsx (hist 1%nat)) as [s|e1| |]; try reflexivity.
    destruct (errors_is e1 ENotInFormat); [|reflexivity]. cbn [negb]. destruct (X2 2%nat h1) as (h2 & ->). destruct (ans_tsv (hist 2%nat)) as [s|e2| |]; try reflexivity.
    destruct (errors_is e2 ENotInFormat); [|reflexivity]. cbn [negb]. destruct (X3 3%nat h2) as (h3 & ->). destruct (ans_csv (hist 3%nat)) as [s|e3| |]; try reflexivity.
    destruct (errors_is e3 ENotInFormat); reflexivity.
  Qed.

  Variable hist : nat -> view.
  Hypothesis HF : forall n, own_file (v_file (hist n)).
  Hypothesis HE : forall n z, v_zip (hist n) = inl z -> own_errors z.

  Lemma not_nif : forall e, ~ on_chain ENotInFormat e -> errors_is e ENotInFormat = false.
  Proof. intros e H. destruct (errors_is e ENotInFormat) eqn:E; [|reflexivity]. apply nif in E. contradiction. Qed.

  Lemma xls_passes : (exists fuel e, ans_xls fuel (hist 0%nat) = Err e /\ on_chain ENotInFormat e) <-> left_to_xlsx sp1 hist.
  Proof.
    unfold ans_xls, left_to_xlsx. pose proof (HF 0%nat) as O. destruct (v_file (hist 0%nat)) as [e|c re] eqn:F; cbn [own_file] in O.
    - split; [|intros (d & Q & _); discriminate]. intros (fuel & e' & Q & C). injection Q as <-. contradiction.
    - destruct O as (B & _ & RE). split.
      + intros (fuel & e & H & C). destruct (xls_stream fuel sizes sp1 c re) as [raw|e1| |] eqn:X; cbn [bind] in H; try discriminate.
        * pose proof (plain_workbook (mkSl raw sp2) sp3) as P. destruct (load_workbook (mkSl raw sp2) sp3) as [b|e1| |]; cbn [bind] in H; try discriminate. injection H as <-. cbn [plain] in P. apply nif in C. congruence.
        * injection H as <-. destruct re as [e'|]; [cbn [xls_stream] in X; injection X as <-; contradiction|]. exists c. split; [reflexivity|]. apply (C107_left sizes); eauto.
      + intros (d & Q & L). injection Q as <- ->. apply (C107_left sizes sp1 c B HZ) in L. destruct L as (fuel & e & X & C). exists fuel, e. rewrite X. cbn [bind]. auto.
  Qed.
  Lemma xlsx_passes : (exists e, ans_xlsx (hist 1%nat) = Err e /\ on_chain ENotInFormat e) <-> left_to_text hist.
  Proof.
    unfold ans_xlsx, left_to_text. pose proof (HF 1%nat) as O. destruct (v_file (hist 1%nat)) as [e|c re] eqn:F; cbn [own_file] in O.
    - split; [|intros ((d & re & Q) & _); discriminate]. intros (e' & Q & C). injection Q as <-. contradiction.
    - split.
      + intros (e & H & C). split; [eauto|]. intros z U. rewrite U in H. apply (C107_no_package order z (HE _ _ U)). exists e. split; [|exact C].
        destruct (open_xlsx order (XZip z)); cbn [bind] in H; congruence.
      + intros (_ & N). destruct (v_zip (hist 1%nat)) as [z|ze] eqn:U.
        * specialize (N z eq_refl). apply (C107_no_package order z (HE _ _ U)) in N. destruct N as (e & X & C). exists e. rewrite X. cbn [bind]. auto.
        * exists (wrap_err [ze; ENotInFormat]). cbn [open_xlsx bind]. split; [reflexivity|]. apply nif. reflexivity.
  Qed.
  Lemma csv_never : forall v s, ans_csv v <> Ok s.
  Proof. intros v s H. unfold ans_csv in H. destruct (C06_csv_opens_refuted iter rd fn (v_file v)) as (e & E). rewrite E in H. discriminate. Qed.

  (** ** C111: each kind of source comes from one reading of the file and from nothing else *)
  (** an XLS workbook: from the first reading, read to its end without an error *)
  Theorem C111_xls : forall b, (exists fuel, opened fuel hist = Ok (SrcXls b)) <->
    (exists data raw, v_file (hist 0%nat) = FileData data None /\ accepted data /\ readable_upto data (bs "Workbook") /\
      stream_content data (data ++ sp1) (bs "Workbook") raw /\ load_workbook (mkSl raw sp2) sp3 = Ok b).
  Proof.
    intros b. pose proof (HF 0%nat) as O.
    pose (w0 := mkOs (fun _ => v_file (hist 0%nat)) []).
    assert (BD : forall data re, os_file w0 fn = FileData data re -> bytes_ok data).
    { intros data re Q. cbn [w0 os_file] in Q. rewrite Q in O. apply O. }
    assert (E : forall fuel, opened fuel hist = Ok (SrcXls b) <-> ans_xls fuel (hist 0%nat) = Ok (SrcXls b)).
    { intros fuel. rewrite opened_chain. cbn [chain]. split; [|intros ->; reflexivity].
      destruct (ans_xls fuel (hist 0%nat)) as [s|e| |] eqn:A; auto; try discriminate. destruct (errors_is e ENotInFormat); [|discriminate].
      intros H. exfalso. revert H. destruct (ans_xlsx (hist 1%nat)) as [s|e1| |] eqn:A1; try discriminate.
      { intros H. injection H as ->. unfold ans_xlsx in A1. destruct (v_file (hist 1%nat)); [discriminate|]. destruct (open_xlsx order _); discriminate. }
      destruct (errors_is e1 ENotInFormat); [|discriminate]. destruct (ans_tsv (hist 2%nat)) as [s|e2| |] eqn:A2; try discriminate.
      { intros H. injection H as ->. unfold ans_tsv in A2. destruct (open_tsv iter fn _); discriminate. }
      destruct (errors_is e2 ENotInFormat); [|discriminate]. destruct (ans_csv (hist 3%nat)) as [s|e3| |] eqn:A3; try discriminate; [elim (csv_never _ _ A3)|].
      destruct (errors_is e3 ENotInFormat); discriminate. }
    split.
    - intros (fuel & H). apply E in H. unfold ans_xls in H. destruct (v_file (hist 0%nat)) as [e|c re] eqn:F; [discriminate|].
      destruct (xls_stream fuel sizes sp1 c re) as [raw| | |] eqn:X; cbn [bind] in H; try discriminate.
      destruct (load_workbook (mkSl raw sp2) sp3) as [b'| | |] eqn:L; cbn [bind] in H; try discriminate. injection H as ->.
      destruct re as [e|]; [discriminate|]. exists c, raw. split; [reflexivity|]. unfold xls_stream in X.
      destruct (load fuel (mkSl c sp1)) as [d| | |] eqn:LD; cbn [bind] in X; try discriminate. destruct (doc_open fuel d (bs "Workbook")) as [r| | |] eqn:DO; cbn [bind] in X; try discriminate.
      destruct (proj1 (C106_exact c sp1 (bs "Workbook") raw sizes (proj1 O) HZ)) as (A1 & A2 & A3); [exists fuel, d, r; auto|]. auto.
    - intros (data & raw & F & A1 & A2 & A3 & LW). rewrite F in O.
      destruct (proj2 (C106_exact data sp1 (bs "Workbook") raw sizes (proj1 O) HZ) (conj A1 (conj A2 A3))) as (fuel & d & r & L & DO & R).
      exists fuel. apply E. unfold ans_xls. rewrite F. unfold xls_stream. rewrite L. cbn [bind]. rewrite DO. cbn [bind]. rewrite R. cbn [bind]. rewrite LW. reflexivity.
  Qed.

  (** an XLSX document: from the second reading, after the first one met something that is left to others *)
  Theorem C111_xlsx : (exists fuel f o, opened fuel hist = Ok (SrcXlsx f o)) <->
    left_to_xlsx sp1 hist /\ exists d re z, v_file (hist 1%nat) = FileData d re /\ v_zip (hist 1%nat) = inl z /\ is_package z.
  Proof.
    split.
    - intros (fuel & f & o & H). rewrite opened_chain in H. cbn [chain] in H.
      destruct (ans_xls fuel (hist 0%nat)) as [s|e| |] eqn:A; try discriminate.
      { exfalso. injection H as ->. unfold ans_xls in A. destruct (v_file (hist 0%nat)) as [?|c re]; [discriminate|]. destruct (xls_stream fuel sizes sp1 c re); cbn [bind] in A; try discriminate. destruct (load_workbook _ _); discriminate. }
      destruct (errors_is e ENotInFormat) eqn:N; [|discriminate]. split; [apply xls_passes; exists fuel, e; split; [exact A|apply nif; exact N]|].
      destruct (ans_xlsx (hist 1%nat)) as [s|e1| |] eqn:A1; try discriminate.
      2: { exfalso. destruct (errors_is e1 ENotInFormat); [|discriminate]. destruct (ans_tsv (hist 2%nat)) as [s|e2| |] eqn:A2; try discriminate.
        { injection H as ->. unfold ans_tsv in A2. destruct (open_tsv iter fn _); discriminate. }
        destruct (errors_is e2 ENotInFormat); [|discriminate]. destruct (ans_csv (hist 3%nat)) as [s|e3| |] eqn:A3; try discriminate; [elim (csv_never _ _ A3)|].
        destruct (errors_is e3 ENotInFormat); discriminate. }
      unfold ans_xlsx in A1. destruct (v_file (hist 1%nat)) as [|d re] eqn:F; [discriminate|]. destruct (v_zip (hist 1%nat)) as [z|ze] eqn:U; [|discriminate].
      exists d, re, z. split; [reflexivity|]. split; [reflexivity|]. apply (C107_package order); [exact HO|]. destruct (open_xlsx order (XZip z)) as [x| | |]; try discriminate. eauto.
    - intros (P & d & re & z & F & U & PK). apply xls_passes in P. destruct P as (fuel & e & A & C). apply (C107_package order z HO) in PK. destruct PK as (x & X).
      exists fuel, fn, (mkXO x false). rewrite opened_chain. cbn [chain]. rewrite A. apply nif in C. rewrite C. unfold ans_xlsx. rewrite F, U, X. reflexivity.
  Qed.

  (** a text table: from the third reading, complete and read without an error *)
  Theorem C111_text : forall t, (exists fuel, opened fuel hist = Ok (SrcSimple t)) <->
    left_to_xlsx sp1 hist /\ left_to_text hist /\ exists data rows, v_file (hist 2%nat) = FileData data None /\ reads_as_text data rows /\ t = mkSimple fn rows (-1).
  Proof.
    intros t. split.
    - intros (fuel & H). rewrite opened_chain in H. cbn [chain] in H.
      destruct (ans_xls fuel (hist 0%nat)) as [s|e| |] eqn:A; try discriminate.
      { exfalso. injection H as ->. unfold ans_xls in A. destruct (v_file (hist 0%nat)) as [?|c re]; [discriminate|]. destruct (xls_stream fuel sizes sp1 c re); cbn [bind] in A; try discriminate. destruct (load_workbook _ _); discriminate. }
      destruct (errors_is e ENotInFormat) eqn:N; [|discriminate]. split; [apply xls_passes; exists fuel, e; split; [exact A|apply nif; exact N]|].
      destruct (ans_xlsx (hist 1%nat)) as [s|e1| |] eqn:A1; try discriminate.
      { exfalso. injection H as ->. unfold ans_xlsx in A1. destruct (v_file (hist 1%nat)); [discriminate|]. destruct (open_xlsx order _); discriminate. }
      destruct (errors_is e1 ENotInFormat) eqn:N1; [|discriminate]. split; [apply xlsx_passes; exists e1; split; [exact A1|apply nif; exact N1]|].
      destruct (ans_tsv (hist 2%nat)) as [s|e2| |] eqn:A2; try discriminate.
      2: { exfalso. destruct (errors_is e2 ENotInFormat); [|discriminate]. destruct (ans_csv (hist 3%nat)) as [s|e3| |] eqn:A3; try discriminate; [elim (csv_never _ _ A3)|].
        destruct (errors_is e3 ENotInFormat); discriminate. }
      injection H as ->. unfold ans_tsv in A2. destruct (open_tsv iter fn (v_file (hist 2%nat))) as [t'| | |] eqn:T; try discriminate. injection A2 as ->.
      pose proof (HF 2%nat) as O. destruct (v_file (hist 2%nat)) as [e'|data re] eqn:F; [discriminate|]. destruct re as [e'|].
      { exfalso. cbn [open_tsv] in T. unfold scan_lines in T. destruct (existsb _ _); discriminate. }
      apply tsv_exact in T; [|exact HI|apply O]. destruct T as (rows & R & ->). eauto.
    - intros (P0 & P1 & data & rows & F & R & ->). apply xls_passes in P0. destruct P0 as (fuel & e & A & C). apply xlsx_passes in P1. destruct P1 as (e1 & A1 & C1).
      exists fuel. rewrite opened_chain. cbn [chain]. apply nif in C, C1. rewrite A, C, A1, C1. unfold ans_tsv. rewrite F.
      pose proof (HF 2%nat) as O. rewrite F in O. assert (T : open_tsv iter fn (FileData data None) = Ok (mkSimple fn rows (-1))) by (apply tsv_exact; eauto; apply O).
      rewrite T. reflexivity.
  Qed.

  (** ** C111: an error of the reading that is being done ends Open with this error: for the first reading,
      for opening the file again, and for the third reading (where a line that is too long comes first) *)
  Theorem C111_errors :
    (forall e, (v_file (hist 0%nat) = FileErr e \/ exists d, v_file (hist 0%nat) = FileData d (Some e)) -> forall fuel, opened fuel hist = Err e) /\
    (forall e, left_to_xlsx sp1 hist -> v_file (hist 1%nat) = FileErr e -> exists fuel, opened fuel hist = Err e) /\
    (forall e, left_to_xlsx sp1 hist -> left_to_text hist -> v_file (hist 2%nat) = FileErr e -> exists fuel, opened fuel hist = Err e) /\
    (forall d e, left_to_xlsx sp1 hist -> left_to_text hist -> v_file (hist 2%nat) = FileData d (Some e) ->
       exists fuel e', opened fuel hist = Err e' /\ (e' = e \/ e' = errTooLong)).
  Proof.
    split; [|split; [|split]].
    - intros e H fuel. rewrite opened_chain. cbn [chain]. unfold ans_xls. pose proof (HF 0%nat) as O. destruct H as [F|(d & F)]; rewrite F in *; cbn [own_file] in O.
      + rewrite (not_nif _ O). reflexivity.
      + cbn [xls_stream bind]. rewrite (not_nif e) by apply O. reflexivity.
    - intros e P F. apply xls_passes in P. destruct P as (fuel & e0 & A & C). exists fuel. rewrite opened_chain. cbn [chain]. apply nif in C. rewrite A, C.
      pose proof (HF 1%nat) as O. unfold ans_xlsx. rewrite F in *. rewrite (not_nif _ O). reflexivity.
    - intros e P P1 F. apply xls_passes in P. destruct P as (fuel & e0 & A & C). apply xlsx_passes in P1. destruct P1 as (e1 & A1 & C1). exists fuel. rewrite opened_chain. cbn [chain]. apply nif in C, C1. rewrite A, C, A1, C1.
      pose proof (HF 2%nat) as O. unfold ans_tsv. rewrite F in *. cbn [open_tsv bind]. rewrite (not_nif _ O). reflexivity.
    - intros d e P P1 F. apply xls_passes in P. destruct P as (fuel & e0 & A & C). apply xlsx_passes in P1. destruct P1 as (e1 & A1 & C1). exists fuel. rewrite opened_chain. cbn [chain]. apply nif in C, C1. rewrite A, C, A1, C1.
      pose proof (HF 2%nat) as O. unfold ans_tsv. rewrite F in *. cbn [own_file] in O. cbn [open_tsv]. unfold scan_lines. destruct (existsb _ _); cbn [bind].
      + exists errTooLong. split; [|auto]. reflexivity.
      + exists e. split; [|auto]. rewrite (not_nif e) by apply O. reflexivity.
  Qed.

  (** ** C111: on a file that nobody changes and that can be read, this is grate.Open as in the other
      properties *)
  Theorem C111_steady : forall fuel unzip srt' data w, sorts_by_priority srt' -> os_file w fn = FileData data None ->
    opened fuel (steady data (unzip data)) = fst (open_file (registered srt' (stock fuel sizes sp1 sp2 sp3 unzip order iter rd)) fn w).
  Proof.
    intros fuel unzip srt' data w HS' F. rewrite opened_chain. rewrite (stock_table fuel sizes sp1 sp2 sp3 unzip order iter rd srt' _ HS' (Permutation_refl _)).
    unfold steady, stock, ans_xls, ans_xlsx, ans_tsv, ans_csv. cbn [v_file v_zip chain open_file tab_op xls_entry xlsx_entry tsv_entry csv_entry].
    unfold xls_open. rewrite F. match goal with |- context [bind (xls_stream ?a ?b ?c ?d ?e) ?f] => destruct (bind (xls_stream a b c d e) f) as [s|e0| |] end; try reflexivity.
    destruct (errors_is e0 ENotInFormat); [|reflexivity]. cbn [negb]. unfold xlsx_open. change (os_file (hold fn w)) with (os_file w). rewrite F.
    match goal with |- context [bind (open_xlsx ?a ?b) ?f] => destruct (bind (open_xlsx a b) f) as [s|e1| |] end; try reflexivity.
    destruct (errors_is e1 ENotInFormat); [|reflexivity]. cbn [negb]. unfold tsv_open. change (os_file (hold fn (hold fn w))) with (os_file w). rewrite F.
    match goal with |- context [bind (open_tsv ?a ?b ?c) ?f] => destruct (bind (open_tsv a b c) f) as [s|e2| |] end; try reflexivity.
    destruct (errors_is e2 ENotInFormat); [|reflexivity]. cbn [negb]. unfold csv_open. change (os_file (hold fn (hold fn w))) with (os_file w). rewrite F.
    match goal with |- context [bind (open_csv ?a ?b ?c ?d) ?f] => destruct (bind (open_csv a b c d) f) as [s|e3| |] end; try reflexivity.
    destruct (errors_is e3 ENotInFormat); reflexivity.
  Qed.
End Fault.

Section Refuted.
  Variable sizes : nat -> Z.
  Variables sp1 sp2 sp3 : bytes.
  Variable order : list gostr -> list gostr.
  Variable iter : list (Z * Z) -> list (Z * Z).
  Variable rd : bytes -> option gerr -> list (list gostr) * csv_end.
  Variable srt : list (src_open_tab fworld source) -> list (src_open_tab fworld source).
  Hypothesis HS : sorts_by_priority srt.
  Hypothesis HZ : forall i, 0 < sizes i.
  Hypothesis HO : forall l, Permutation l (order l).
  Hypothesis HI : any_order iter.
  Let opened fuel hist fn := fst (open_file (registered srt (timed_stock fuel sizes sp1 sp2 sp3 order iter rd hist)) fn (0%nat, [])).
  Let regs fuel hist := timed_stock fuel sizes sp1 sp2 sp3 order iter rd hist.
  Let HRegs : forall fuel hist, Permutation (regs fuel hist) (timed_stock fuel sizes sp1 sp2 sp3 order iter rd hist) := fun fuel hist => Permutation_refl _.

  (** Refuted: "a read error is reported".  A single failure while the archive is looked for counts as "not in
      this format": a package whose bytes read as lines of text (most small ones do) is then returned as
      a table of its compressed bytes, without an error; without the failure it is opened as a document. *)
  Theorem C111_swallowed_refuted : forall data z e rows fn, bytes_ok data -> zlen data <= 2 ^ 50 -> own_errors z ->
    left_by_xls data (data ++ sp1) -> is_package z -> reads_as_text data rows ->
    (exists fuel f o, opened fuel (steady data (inl z)) fn = Ok (SrcXlsx f o)) /\
    (exists fuel, opened fuel (one_failure data (inl z) e) fn = Ok (SrcSimple (mkSimple fn rows (-1)))).
  Proof.
    intros data z e rows fn B L OE LX PK R. split.
    - apply (C111_xlsx sizes sp1 sp2 sp3 order iter rd srt HS HZ HO regs HRegs fn (steady data (inl z))).
      + intros n. cbn [steady v_file own_file]. auto.
      + split; [exists data; auto|]. exists data, None, z. auto.
    - apply (C111_text sizes sp1 sp2 sp3 order iter rd srt HS HZ HI regs HRegs fn (one_failure data (inl z) e)).
      + intros n. cbn [one_failure v_file own_file]. auto.
      + intros n z' Q. cbn [one_failure v_zip] in Q. destruct (Nat.eqb n 1); [discriminate|]. injection Q as <-. exact OE.
      + split; [exists data; auto|]. split; [split; [exists data, None; reflexivity|intros z' Q; discriminate]|]. exists data, rows. auto.
  Qed.

  (** Refuted: "the answer is the answer for some content that the file had".  A workbook that another program
      puts in place after the first opener has looked at an empty file is returned as a table of its bytes;
      opened on its own it is a workbook, and the empty file an empty table. *)
  Theorem C111_written_refuted : forall data zerr b raw rows fn, bytes_ok data -> zlen data <= 2 ^ 50 ->
    accepted data -> readable_upto data (bs "Workbook") -> stream_content data (data ++ sp1) (bs "Workbook") raw -> load_workbook (mkSl raw sp2) sp3 = Ok b ->
    reads_as_text data rows ->
    (exists fuel, opened fuel (steady data (inr zerr)) fn = Ok (SrcXls b)) /\
    (exists fuel, opened fuel (steady [] (inr zerr)) fn = Ok (SrcSimple (mkSimple fn [] (-1)))) /\
    (exists fuel, opened fuel (written_late data (inr zerr)) fn = Ok (SrcSimple (mkSimple fn rows (-1)))).
  Proof.
    intros data zerr b raw rows fn B L A1 A2 A3 LW R.
    assert (NC : left_by_xls [] ([] ++ sp1)) by (left; intros (H & _); vm_compute in H; apply H; reflexivity).
    assert (BN : bytes_ok []) by constructor.
    split; [|split].
    - apply (C111_xls sizes sp1 sp2 sp3 order iter rd srt HS HZ regs HRegs fn (steady data (inr zerr))).
      + intros n. cbn [steady v_file own_file]. auto.
      + exists data, raw. auto.
    - apply (C111_text sizes sp1 sp2 sp3 order iter rd srt HS HZ HI regs HRegs fn (steady [] (inr zerr))).
      + intros n. cbn [steady v_file own_file]. split; [exact BN|]. split; [cbv; discriminate|exact I].
      + intros n z Q. discriminate.
      + split; [exists []; auto|]. split; [split; [exists [], None; reflexivity|intros z Q; discriminate]|]. exists [], []. split; [reflexivity|]. split; [|reflexivity].
        assert (T : open_tsv iter fn (FileData [] None) = Ok (mkSimple fn [] (-1))).
        { cbn [open_tsv]. change (scan_lines [] None) with (Ok (@nil bytes)). cbn [bind map]. unfold looks_good. cbn [count_cols fold_left].
          pose proof (HI []) as P. change (count_cols []) with (@nil (Z * Z)). apply Permutation_nil in P. rewrite P. reflexivity. }
        apply tsv_exact in T; [|exact HI|cbv; discriminate]. destruct T as (rows' & R' & Q). injection Q as <-. exact R'.
    - apply (C111_text sizes sp1 sp2 sp3 order iter rd srt HS HZ HI regs HRegs fn (written_late data (inr zerr))).
      + intros n. unfold written_late. destruct (Nat.eqb n 0); cbn [v_file own_file]; [|auto]. split; [exact BN|]. split; [cbv; discriminate|exact I].
      + intros n z Q. unfold written_late in Q. destruct (Nat.eqb n 0); discriminate.
      + split; [exists []; auto|]. split; [split; [exists data, None; reflexivity|intros z Q; discriminate]|]. exists data, rows. auto.
  Qed.
End Refuted.

(** ** Examples *)
Definition exf_open hist fn := fst (open_file (registered (@isort _ _) (timed_stock 5000 (fun _ => 512) [] [] [] (fun l => l) (fun l => l) exo_rd hist)) fn (0%nat, [])).
(** a package of four bytes for which the example archive stands, with one failure and without *)
Example ex_C111_swallowed : own_errors odd_zip /\ is_package odd_zip /\ ~ compound (bs "PK" ++ [3; 4]) /\ reads_as_text (bs "PK" ++ [3; 4]) [[bs "PK" ++ [3; 4]]] /\
  (exists o, exf_open (steady (bs "PK" ++ [3; 4]) (inl odd_zip)) (bs "a") = Ok (SrcXlsx (bs "a") o)) /\
  exf_open (one_failure (bs "PK" ++ [3; 4]) (inl odd_zip) (ELeaf 5)) (bs "a") = Ok (SrcSimple (mkSimple (bs "a") [[bs "PK" ++ [3; 4]]] (-1))).
Proof.
  split; [apply ex_C107_zips|]. split; [apply ex_C107_zips|]. split; [intros (H & _); vm_compute in H; apply H; reflexivity|]. split.
  - assert (T : open_tsv (fun l => l) (bs "a") (FileData (bs "PK" ++ [3; 4]) None) = Ok (mkSimple (bs "a") [[bs "PK" ++ [3; 4]]] (-1))) by (vm_compute; reflexivity).
    apply tsv_exact in T; [|intros m; apply Permutation_refl|cbv; discriminate]. destruct T as (rows & R & Q). injection Q as <-. exact R.
  - split; [eexists|]; vm_compute; reflexivity.
Qed.
(** the workbook file of C74, put in place late *)
Example ex_C111_written :
  match exf_open (steady exo_file (inr (ELeaf 2))) (bs "a") with Ok (SrcXls b) => wb_list b = [bs "Data"] | _ => False end /\
  match exf_open (written_late exo_file (inr (ELeaf 2))) (bs "a") with Ok (SrcSimple t) => zlen (concat (concat (sf_rows t))) | _ => 0 end > 2000.
Proof. split; vm_compute; reflexivity. Qed.
(** errors: of the first reading, of opening the file for the second time, and of the third reading *)
Example ex_C111_errors :
  exf_open (fun n => mkView (FileData (bs "a") (Some (ELeaf 9))) (inr (ELeaf 2))) (bs "a") = Err (ELeaf 9) /\
  exf_open (fun n => mkView (if Nat.eqb n 1 then FileErr (ELeaf 9) else FileData (bs "a") None) (inr (ELeaf 2))) (bs "a") = Err (ELeaf 9) /\
  exf_open (fun n => mkView (FileData (bs "a") (if Nat.eqb n 2 then Some (ELeaf 9) else None)) (inr (ELeaf 2))) (bs "a") = Err (ELeaf 9).
Proof. repeat split; vm_compute; reflexivity. Qed.

Print Assumptions C111_xls.
Print Assumptions C111_xlsx.
Print Assumptions C111_text.
Print Assumptions C111_errors.
Print Assumptions C111_steady.
Print Assumptions C111_swallowed_refuted.
Print Assumptions C111_written_refuted.

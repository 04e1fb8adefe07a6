(** * P_simple: properties C04-C09 (package simple). *)
From Verif Require Import GoBase GoFloat L_base M_grate S_grate L_grate M_simple S_simple L_simple.
From Coq Require Import Permutation Sorted.

(** C04.  Round trip: a table of plain fields written as tab-separated lines opens as exactly
    that table, with the cursor before the first row, whatever order the runtime walks
    the column-count map in. *)
Theorem C04_tsv_round_trip :
  forall it fn rows, any_order it -> plain_table rows -> zlen rows <= 2 ^ 50 -> shape_ok rows ->
    open_tsv it fn (FileData (tsv_text rows) None) = Ok (mkSimple fn rows (-1)).
Proof. exact tsv_round_trip. Qed.

(** C04, for every text at all: if OpenTSV succeeds, its rows are the tab-separated fields of
    the lines of the text, in order. *)
Theorem C04_tsv_rows_are_lines :
  forall it fn content t, any_order it ->
    open_tsv it fn (FileData content None) = Ok t ->
    exists ls, Lines content ls /\ Forall (fun l => zlen l <= 65535) ls /\
      Forall2 RowOf ls (sf_rows t) /\ sf_iter t = -1 /\ sf_filename t = fn /\
      looks_good it (sf_rows t) <> 1.
Proof. exact open_tsv_ok. Qed.

(** C05.  The decision does not depend on the map order ... *)
Theorem C05_order_independent :
  forall it1 it2 fn f, any_order it1 -> any_order it2 ->
    open_tsv it1 fn f = open_tsv it2 fn f.
Proof.
  intros. destruct f as [e|c re]; simpl; auto. destruct (scan_lines c re); simpl; auto.
  rewrite (looks_good_order it1 it2) by auto. reflexivity.
Qed.

(** ... and is: accept exactly the tables whose shape is ok (floating-point comparison with
    0.8 included; 2^50 lines is beyond any file). *)
Theorem C05_accept_iff :
  forall it fn content ls rows, any_order it ->
    Lines content ls -> Forall (fun l => zlen l <= 65535) ls -> Forall2 RowOf ls rows ->
    zlen rows <= 2 ^ 50 ->
    (shape_ok rows -> open_tsv it fn (FileData content None) = Ok (mkSimple fn rows (-1))) /\
    (~ shape_ok rows -> open_tsv it fn (FileData content None) = Err ENotInFormat).
Proof.
  exact (fun it fn content ls rows H1 H2 H3 H4 H5 =>
    conj (open_tsv_accept it fn content ls rows H1 H2 H3 H4 H5)
         (open_tsv_reject it fn content ls rows H1 H2 H3 H4 H5)).
Qed.

(** C06 (violated).  Whatever the file and whatever the CSV reader delivers, OpenCSV fails. *)
Theorem C06_csv_opens_refuted :
  forall it csv_read fn f, exists e, open_csv it csv_read fn f = Err e.
Proof. exact open_csv_fails. Qed.

(** C06, what callers see: a file read to a clean end with fewer than ten records is
    "not in format", a longer one is reported as io.EOF. *)
Theorem C06_csv_clean_end :
  forall it csv_read fn content recs,
    csv_read content None = (recs, CsvEOF) ->
    exists e, open_csv it csv_read fn (FileData content None) = Err e /\
      (errors_is e ENotInFormat = true <-> zlen recs < 10).
Proof.
  intros it rd fn content recs H. simpl. rewrite H. simpl.
  destruct (Z.ltb_spec (zlen recs) 10); eexists; (split; [reflexivity|]); simpl.
  - split; auto.
  - split; [discriminate|lia].
Qed.

(** C07 (violated).  With the four stock formats registered, in any order, a text file
    without tabs that the binary formats reject is opened by the TSV opener: every row is
    one field holding the whole line, commas included. *)
Definition fs_world := gostr -> gofile.
Definition tsv_entry it : src_open_tab fs_world simple_file :=
  mkTab (bs "tsv") 10 (fun fn w => (open_tsv it fn (w fn), w)).
Definition csv_entry it rd : src_open_tab fs_world simple_file :=
  mkTab (bs "csv") 15 (fun fn w => (open_csv it rd fn (w fn), w)).

Theorem C07_commas_are_not_split_refuted :
  forall it rd srt hist fn (w : fs_world) content e1 e2 opx opxx,
    any_order it -> sorts_by_priority srt ->
    Permutation hist [mkTab (bs "xls") 1 opx; mkTab (bs "xlsx") 5 opxx; tsv_entry it; csv_entry it rd] ->
    w fn = FileData content None -> ~ In 9 content ->
    Forall (fun l => zlen l <= 65535) (raw_lines content) -> zlen content <= 2 ^ 50 ->
    opx fn w = (Err e1, w) -> on_chain ENotInFormat e1 ->
    opxx fn w = (Err e2, w) -> on_chain ENotInFormat e2 ->
    open_file (registered srt hist) fn w =
      (Ok (mkSimple fn (map (fun l => [drop_cr l]) (raw_lines content)) (-1)), w).
Proof.
  intros it rd srt hist fn w content e1 e2 opx opxx Hit Hsrt Hp Hw Hnt Hlen Hsz H1 C1 H2 C2.
  set (tbl := [mkTab (bs "xls") 1 opx; mkTab (bs "xlsx") 5 opxx; tsv_entry it; csv_entry it rd]).
  assert (E : registered srt hist = tbl).
  { destruct (registered_spec srt hist Hsrt) as [P1 S1].
    symmetry. apply sorted_unique; auto.
    - apply Permutation_sym. eapply Permutation_trans; [apply Permutation_sym; exact P1|exact Hp].
    - simpl. repeat constructor; simpl; intuition discriminate.
    - repeat constructor; unfold by_pri; simpl; lia. }
  rewrite E. change tbl with ([mkTab (bs "xls") 1 opx; mkTab (bs "xlsx") 5 opxx] ++
                             tsv_entry it :: [csv_entry it rd]).
  eapply open_first_decisive.
  - eapply skips_cons; [exact H1|exact C1|]. eapply skips_cons; [exact H2|exact C2|constructor].
  - simpl. rewrite Hw, (open_tsv_no_tabs it fn content) by auto. reflexivity.
  - intros e; discriminate.
Qed.

(** C08.  The k-th Next answers true exactly for k <= number of rows; after it Strings is
    row k, Types has "blank" exactly for empty fields and Formats is "General"
    throughout. *)
Theorem C08_cursor :
  forall fn rows k, (0 < k)%nat ->
    let '(t, more) := nexts k (mkSimple fn rows (-1)) in
    more = (Z.of_nat k <=? zlen rows) /\
    forall row, nth_error rows (k - 1) = Some row ->
      sf_strings t = Ok row /\
      sf_types t = Ok (map (fun f => match f with [] => bs "blank" | _ => bs "string" end) row) /\
      sf_formats t = Ok (repeat (bs "General") (List.length row)).
Proof. exact cursor. Qed.

(** C08, past the end: Next stays false; reading the record then is a panic. *)
Theorem C08_after_the_end :
  forall fn rows k, zlen rows < Z.of_nat k ->
    let '(t, more) := nexts k (mkSimple fn rows (-1)) in
    more = false /\ sf_strings t = Panic.
Proof. exact cursor_after. Qed.

(** C09.  Scan with the wrong number of destinations writes nothing. *)
Theorem C09_scan_count :
  forall t row ds, sf_strings t = Ok row -> zlen row <> zlen ds ->
    sf_scan t ds = Ok (ds, Some errScanCount).
Proof.
  intros t row ds H Hl. unfold sf_scan. unfold sf_strings in H. rewrite H. simpl.
  destruct (Z.eqb_spec (zlen row) (zlen ds)); [congruence|reflexivity].
Qed.

(** C09.  Otherwise a prefix of the destinations is filled in order; if the scan stops, it
    stops at the first destination that cannot be filled and leaves the rest alone. *)
Theorem C09_scan_prefix :
  forall t row ds, sf_strings t = Ok row -> zlen row = zlen ds ->
    exists ds' e n, sf_scan t ds = Ok (ds', e) /\ (n <= List.length ds)%nat /\
      (forall i v d, (i < n)%nat -> nth_error row i = Some v -> nth_error ds i = Some d ->
          snd (scan_one v d) = None /\ nth_error ds' i = Some (fst (scan_one v d))) /\
      match e with
      | None => n = List.length ds /\ List.length ds' = List.length ds
      | Some err =>
          exists v d, nth_error row n = Some v /\ nth_error ds n = Some d /\
            snd (scan_one v d) = Some err /\ nth_error ds' n = Some (fst (scan_one v d)) /\
            forall i, (n < i)%nat -> nth_error ds' i = nth_error ds i
      end.
Proof.
  intros t row ds H Hl. unfold sf_scan. unfold sf_strings in H. rewrite H. simpl.
  rewrite Hl, Z.eqb_refl. pose proof (scan_all_spec row ds Hl) as Hs.
  destruct (scan_all row ds) as [ds' e]. destruct Hs as (n & H1 & H2 & H3).
  exists ds', e, n. auto.
Qed.

(** C09.  What one destination receives: strings unchanged, integers by value on the whole
    int64 range, booleans by the word list whatever the letter case, times never. *)
Theorem C09_scan_values :
  (forall v s, scan_one v (DStr s) = (DStr v, None)) /\
  (forall n z, - two63 <= n < two63 -> scan_one (itoa n) (DInt z) = (DInt n, None)) /\
  (forall v b, scan_one v (DBool b) =
     (DBool (existsb (str_eqb (to_lower v)) (map bs ["1"; "t"; "true"; "y"; "yes"]%string)), None)) /\
  (forall v t, exists e, scan_one v (DTime t) = (DTime t, Some e)) /\
  (forall v n, scan_one v (DOther n) = (DOther n, Some EInvalidScanType)).
Proof.
  repeat split; intros; simpl; auto.
  - rewrite parse_int_itoa; [reflexivity|lia|]. change (2 ^ (64 - 1)) with two63. lia.
  - eauto.
Qed.

Print Assumptions C04_tsv_round_trip.
Print Assumptions C04_tsv_rows_are_lines.
Print Assumptions C05_order_independent.
Print Assumptions C05_accept_iff.
Print Assumptions C06_csv_opens_refuted.
Print Assumptions C06_csv_clean_end.
Print Assumptions C07_commas_are_not_split_refuted.
Print Assumptions C08_cursor.
Print Assumptions C08_after_the_end.
Print Assumptions C09_scan_count.
Print Assumptions C09_scan_prefix.
Print Assumptions C09_scan_values.

(** ** The hypotheses are met by non-trivial cases *)
Definition table1 : list (list gostr) :=
  [[bs "id"; bs "name"; []]; [bs "1"; bs "x,y"; bs "z"]; [bs "only"]].

Example ex_plain : plain_table table1 /\ shape_ok table1 /\ any_order (@rev (Z * Z)).
Proof.
  repeat split.
  - repeat constructor; try discriminate;
      try (intros x Hx; apply (f_equal (@rev Z)) in Hx; rewrite rev_app_distr in Hx; vm_compute in Hx; discriminate);
      try (vm_compute; intuition discriminate).
  - left. intros c Hc. apply Z.le_trans with (zlen table1); [apply width_count_le|vm_compute; discriminate].
  - intros m. apply Permutation_rev.
Qed.

Example ex_round_trip :
  open_tsv (@rev (Z * Z)) (bs "f.tsv") (FileData (tsv_text table1) None) = Ok (mkSimple (bs "f.tsv") table1 (-1)).
Proof. vm_compute. reflexivity. Qed.

(** a table the heuristic rejects: 26 lines of two fields among 60 *)
Definition table2 : list (list gostr) :=
  repeat [bs "a"; bs "b"] 26 ++ repeat [bs "c"] 34.
Example ex_rejected :
  open_tsv (@rev (Z * Z)) (bs "f") (FileData (tsv_text table2) None) = Err ENotInFormat /\ ~ shape_ok table2.
Proof.
  assert (E : open_tsv (@rev (Z * Z)) (bs "f") (FileData (tsv_text table2) None) = Err ENotInFormat)
    by (vm_compute; reflexivity).
  split; auto. intros Hs.
  assert (L : (looks_good (@rev (Z * Z)) table2 =? 1) = false).
  { apply looks_good_spec; auto; [intros m; apply Permutation_rev|vm_compute; discriminate]. }
  vm_compute in L. discriminate.
Qed.

(** a comma-separated file, opened with stock openers *)
Definition nif : opener fs_world simple_file := fun _ w => (Err ENotInFormat, w).
Example ex_csv_as_tsv :
  open_file (registered isort [csv_entry (@rev _) (fun _ _ => ([], CsvEOF)); mkTab (bs "xls") 1 nif;
                               tsv_entry (@rev _); mkTab (bs "xlsx") 5 nif])
            (bs "t.csv") (fun _ => FileData (bs "a,b" ++ [10] ++ bs "1,2" ++ [10]) None)
  = (Ok (mkSimple (bs "t.csv") [[bs "a,b"]; [bs "1,2"]] (-1)),
     fun _ => FileData (bs "a,b" ++ [10] ++ bs "1,2" ++ [10]) None).
Proof. vm_compute. reflexivity. Qed.

Example ex_scan :
  sf_scan (fst (nexts 1 (mkSimple [] [[bs "-42"; bs "Yes"; bs "x"; bs "4x"; bs "k"]] (-1))))
          [DInt 7; DBool false; DStr []; DInt 9; DStr (bs "old")]
  = Ok ([DInt (-42); DBool true; DStr (bs "x"); DInt 0; DStr (bs "old")], Some errNumSyntax).
Proof. vm_compute. reflexivity. Qed.

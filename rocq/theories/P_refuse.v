(** * P_refuse: C98 — files of other kinds and damaged workbooks. *)
From Verif Require Import GoBase GoUnicode L_base M_grate S_grate L_grate P_grate M_simple S_simple L_simple P_simple M_slicereader
  M_cfb S_cfb L_cfb P_cfb M_biff M_xls M_xlsx S_open M_open P_open.
From Coq Require Import Lia ZifyBool ZifyNat Permutation.

(** the file as text: lines of at most 65535 bytes, split at tabs, in a shape the column test takes *)
Definition reads_as_text (data : bytes) (rows : list (list gostr)) : Prop :=
  exists ls, Lines data ls /\ Forall (fun l => zlen l <= 65535) ls /\ Forall2 RowOf ls rows /\ shape_ok rows.
Lemma lines_bound : forall data ls, Lines data ls -> zlen ls <= zlen data.
Proof.
  induction 1 as [|l H1 H2|l rest ls H1 H2 IH]; rewrite ?zlen_nil, ?zlen_app, ?zlen_cons in *; [lia| |pose proof (zlen_nonneg _ l); lia].
  destruct l; [congruence|]. rewrite zlen_cons, zlen_nil. pose proof (zlen_nonneg _ l). lia.
Qed.
Lemma f2len : forall ls rows, Forall2 RowOf ls rows -> zlen ls = zlen rows.
Proof. induction 1; [reflexivity|]. rewrite !zlen_cons. lia. Qed.
Lemma tsv_exact : forall it fn data t, any_order it -> zlen data <= 2 ^ 50 ->
  (open_tsv it fn (FileData data None) = Ok t <-> exists rows, reads_as_text data rows /\ t = mkSimple fn rows (-1)).
Proof.
  intros it fn data t HI HL. split.
  - intros E. destruct (open_tsv_ok it fn data t HI E) as (ls & L1 & L2 & L3 & L4 & L5 & L6). exists (sf_rows t). split.
    + exists ls. repeat (split; [assumption|]). apply (looks_good_spec it); auto; [|lia]. rewrite <- (f2len _ _ L3). pose proof (lines_bound _ _ L1). lia.
    + destruct t. simpl in *. subst. reflexivity.
  - intros (rows & (ls & L1 & L2 & L3 & L4) & ->). eapply open_tsv_accept; eauto. rewrite <- (f2len _ _ L3). pose proof (lines_bound _ _ L1). lia.
Qed.

(** a chain that leads out of the file *)
Lemma stream_loop_cut : forall d sz, sec_size d = sz -> 0 < sz ->
  forall l s size done m fuel, walk (d_fat d) (l ++ [s]) -> Forall (in_file (dat (d_data d)) sz) l -> zlen l * sz < size ->
  s < 4294967291 -> zlen (dat (d_data d)) < (1 + s) * sz -> (List.length l < fuel)%nat -> (List.length l <= m)%nat ->
  stream_loop fuel d (hd s l) size (zlen done) (done ++ repeat [] m) = Err ECorrupt.
Proof.
  intros d sz Hsz Hz l. induction l as [|a l IH]; intros s size done m fuel W HF S1 B1 B2 Fu Hm.
  - cbn [app walk hd] in *. destruct fuel as [|fuel]; [simpl in Fu; lia|]. cbn [stream_loop]. replace (is_end s) with false by (unfold is_end, secEndOfChain, secFree; lia).
    unfold sec_off. change (2 ^ h_shift (d_header d)) with (sec_size d). rewrite Hsz. unfold sl_len. replace (u32 (1 + s)) with (1 + s) by (unfold u32; rewrite Z.mod_small; lia).
    destruct (Z.ltb_spec (zlen (dat (d_data d))) ((1 + s) * sz)); [reflexivity|lia].
  - assert (C : 0 <= a /\ nth_error (d_fat d) (Z.to_nat a) = Some (hd s l) /\ walk (d_fat d) (l ++ [s])).
    { destruct l as [|b l]; cbn [app walk hd] in *; tauto. }
    destruct C as (P & N & C'). cbn [hd].
    destruct fuel as [|fuel]; [simpl in Fu; lia|]. destruct m as [|m]; [simpl in Hm; lia|]. cbn [stream_loop].
    inversion HF as [|? ? I HF']; subst x l0. rewrite (in_file_not_end _ _ _ I).
    destruct (in_file_off _ _ _ I Hz) as (U & A & B). unfold sec_off.
    change (2 ^ h_shift (d_header d)) with (sec_size d). rewrite Hsz, U. unfold sl_len at 1.
    destruct (Z.ltb_spec (zlen (dat (d_data d))) ((1 + a) * sz)); [lia|].
    destruct (sl_range_dat (d_data d) ((1 + a) * sz) ((1 + a) * sz + sz)) as (sp & E & _); try lia.
    rewrite E. cbn [bind]. replace ((1 + a) * sz + sz - (1 + a) * sz) with sz by lia.
    fold (sector (dat (d_data d)) sz a). unfold sl_len. cbn [dat].
    pose proof (zlen_sector _ _ _ I Hz) as LS. rewrite LS. rewrite zlen_cons in *. pose proof (zlen_nonneg _ l).
    destruct (Z.ltb_spec size sz); [nia|]. cbn [repeat].
    rewrite set_idx_at by auto. cbn [bind]. destruct (Z.eqb_spec (size - sz) 0); [nia|].
    rewrite (idx_nth _ _ _ _ P N). cbn [bind].
    replace (zlen done + 1) with (zlen (done ++ [sector (dat (d_data d)) sz a])) by (rewrite zlen_app, zlen_cons, zlen_nil; lia).
    replace (done ++ sector (dat (d_data d)) sz a :: repeat [] m)
      with ((done ++ [sector (dat (d_data d)) sz a]) ++ repeat [] m) by (rewrite <- app_assoc; reflexivity).
    apply IH; auto; [nia|simpl in Fu; lia|simpl in Hm; lia].
Qed.
Lemma cut_chain : forall data sp major fat1 fat2 mini firstdir es name start size l s, bytes_ok data ->
  cfb_header data major fat1 fat2 mini firstdir -> dir_at data major firstdir es ->
  first_named es name start size -> 4096 <= size ->
  walk (fat_of data (sec_bytes major) (fat1 ++ fat2)) (l ++ [s]) -> start = hd s l -> Forall (in_file data (sec_bytes major)) l -> zlen l * sec_bytes major < size ->
  s < 4294967291 -> zlen data < (1 + s) * sec_bytes major ->
  exists N d, forall fuel, (N <= fuel)%nat ->
    load fuel (mkSl data sp) = Ok d /\ doc_open fuel d (string_of_runes name) = Err ECorrupt.
Proof.
  intros data sp major fat1 fat2 mini firstdir es name start size l s B H HD (pre & post & EE & HN) HS W -> HF HL B1 B2. set (sz := sec_bytes major) in *.
  destruct (loaded data sp _ _ _ _ _ _ B H HD) as (N & d & LD & D1 & D2 & D3 & D4 & D5 & D6 & D7 & D8).
  assert (MJ : major = 3 \/ major = 4) by (destruct H; tauto).
  destruct (pow_cases major MJ) as (P1 & P2 & P3 & P4). fold sz in P1, P2, P3, P4, D2, D3, D4.
  exists (Nat.max N (S (List.length l))), d. intros fuel Fu. split; [apply LD; lia|].
  unfold doc_open. rewrite EE in D8. rewrite (open_loop_finds fuel d name (hd s l) size pre post _ D8 HN ltac:(lia) D6).
  destruct (Z.ltb_spec size 4096); [lia|]. unfold get_stream_reader. rewrite D4.
  pose proof (stream_loop_cut d sz D4 ltac:(lia) l s size [] (Z.to_nat (1 + size / sz)) fuel) as SL.
  rewrite zlen_nil in SL. cbn [app] in SL. rewrite D1, D2 in SL. cbn [dat] in SL.
  rewrite SL; auto; try lia.
  assert (zlen l <= size / sz) by (apply Z.div_le_lower_bound; lia). unfold zlen in *. lia.
Qed.

(** the errors of loading *)
Lemma le32_err : forall l e, le32 l <> Err e.
Proof. intros l e. unfold le32. destruct l as [|a [|b [|c [|d l]]]]; discriminate. Qed.
Lemma from_err : forall s o e, sl_from s o <> Err e.
Proof. intros s o e. unfold sl_from. destruct (_ && _); discriminate. Qed.
Lemma entries_err : forall n l acc e, read_entries n l acc <> Err e.
Proof. induction n as [|n IH]; intros l acc e; cbn [read_entries]; [discriminate|]. destruct (le32 l) eqn:E; cbn [bind]; try discriminate; [apply IH|elim (le32_err _ _ E)]. Qed.
Ltac err_step IH := match goal with
  | H : (bind ?x _) = Err _ |- _ => let E := fresh in destruct x as [?|?| |] eqn:E; cbn [bind] in H; try discriminate; [|solve [elim (le32_err _ _ E)|elim (from_err _ _ _ E)|elim (entries_err _ _ _ _ E)|injection H as <-; eapply IH; exact E]]
  | H : (let '(_, _) := ?x in _) = Err _ |- _ => destruct x
  | H : (if ?b then _ else _) = Err _ |- _ => destruct b; try discriminate
  | H : Err _ = Err _ |- _ => injection H as <-; reflexivity
  end.
Lemma load_fat_err : forall data shift nent sids fat e, load_fat data shift nent sids fat = Err e -> e = EUnableToLoad.
Proof. induction sids as [|s r IH]; intros fat e H; cbn [load_fat] in H; [discriminate|]. cbv zeta in H. repeat err_step IH. eapply IH; exact H. Qed.
Lemma difat_entries_err : forall data shift nent n l fat e, difat_entries data shift nent n l fat = Err e -> e = EUnableToLoad.
Proof. induction n as [|n IH]; intros l fat e H; cbn [difat_entries] in H; [discriminate|]. cbv zeta in H. repeat err_step IH; eapply IH; exact H. Qed.
Lemma difat_loop_err : forall fuel data shift nent s fat e, difat_loop fuel data shift nent s fat = Err e -> e = EUnableToLoad.
Proof. induction fuel as [|fuel IH]; intros data shift nent s fat e H; cbn [difat_loop] in H; [repeat err_step IH|]. repeat err_step difat_entries_err. eapply IH; exact H. Qed.
Lemma minifat_loop_err : forall fuel data shift nent k s fat e, minifat_loop fuel data shift nent k s fat = Err e -> e = EUnableToLoad.
Proof. induction fuel as [|fuel IH]; intros data shift nent k s fat e H; cbn [minifat_loop] in H; [repeat err_step IH|]. cbv zeta in H. repeat err_step IH. eapply IH; exact H. Qed.
Lemma load_err : forall fuel data e, load fuel data = Err e -> e = ENotInFormat \/ exists n, e = ELeaf n.
Proof.
  intros fuel data e H. unfold load in H. cbv zeta in H.
  repeat match type of H with (if ?b then Err ?x else _) = _ => destruct b; [injection H as <-; first [left; reflexivity|right; eexists; reflexivity]|] end.
  repeat match type of H with (if ?b then Panic else _) = _ => destruct b; [discriminate|] end.
  destruct (load_fat _ _ _ _ _) as [f|?| |] eqn:E1; cbn [bind] in H; try discriminate; [|injection H as <-; apply load_fat_err in E1; right; eexists; exact E1].
  match type of H with (bind ?x _) = _ => destruct x as [f2|?| |] eqn:E2; cbn [bind] in H; try discriminate end.
  2: { injection H as <-. destruct (0 <? _); [|discriminate]. apply difat_loop_err in E2. right; eexists; exact E2. }
  destruct (minifat_loop _ _ _ _ _ _ _) as [f3|?| |] eqn:E3; cbn [bind] in H; try discriminate; [|injection H as <-; apply minifat_loop_err in E3; right; eexists; exact E3].
  destruct (build_dirs _ _ _ _ _). discriminate.
Qed.

Section Passed.
  Variable sizes : nat -> Z.
  Variables sp1 sp2 sp3 : bytes.
  Variable unzip : bytes -> xzip + gerr.
  Variable order : list gostr -> list gostr.
  Variable iter : list (Z * Z) -> list (Z * Z).
  Variable rd : bytes -> option gerr -> list (list gostr) * csv_end.
  Variable srt : list (src_open_tab osw source) -> list (src_open_tab osw source).
  Hypothesis HS : sorts_by_priority srt.
  Hypothesis HI : any_order iter.
  Variables (fn : gostr) (w : osw) (data : bytes) (ze : gerr).
  Hypothesis HW : os_file w fn = FileData data None.
  Hypothesis HL : zlen data <= 2 ^ 50.
  Hypothesis HU : unzip data = inr ze.
  Definition opens_as (rows : list (list gostr)) : Prop :=
    exists N, forall fuel hist, (N <= fuel)%nat -> Permutation hist (stock fuel sizes sp1 sp2 sp3 unzip order iter rd) ->
      fst (open_file (registered srt hist) fn w) = Ok (SrcSimple (mkSimple fn rows (-1))).
  Definition refused : Prop :=
    exists N, forall fuel hist, (N <= fuel)%nat -> Permutation hist (stock fuel sizes sp1 sp2 sp3 unzip order iter rd) ->
      exists e, fst (open_file (registered srt hist) fn w) = Err e.
  Lemma passed_on : forall fuel e hist, Permutation hist (stock fuel sizes sp1 sp2 sp3 unzip order iter rd) ->
    xls_stream fuel sizes sp1 data None = Err e -> on_chain ENotInFormat e ->
    (forall t, open_tsv iter fn (FileData data None) = Ok t -> fst (open_file (registered srt hist) fn w) = Ok (SrcSimple t)) /\
    ((forall t, open_tsv iter fn (FileData data None) <> Ok t) -> exists e', fst (open_file (registered srt hist) fn w) = Err e').
  Proof.
    intros fuel e hist HP E NE. rewrite (stock_table fuel sizes sp1 sp2 sp3 unzip order iter rd srt hist HS HP). unfold stock. cbn [open_file xls_entry tab_op]. unfold xls_open. rewrite HW, E. cbn [bind].
    rewrite (proj2 (nif e) NE). cbn [negb]. cbn [xlsx_entry tab_op]. unfold xlsx_open. change (os_file (hold fn w)) with (os_file w). rewrite HW, HU. cbn [open_xlsx bind].
    change (negb (errors_is (wrap_err [ze; ENotInFormat]) ENotInFormat)) with false. cbv iota. cbn [tsv_entry tab_op]. unfold tsv_open. change (os_file (hold fn (hold fn w))) with (os_file w). rewrite HW. split.
    - intros t ET. rewrite ET. reflexivity.
    - intros NT. destruct (open_tsv iter fn (FileData data None)) as [t|e'| |] eqn:ET; cbn [bind].
      + elim (NT t eq_refl).
      + destruct (negb (errors_is e' ENotInFormat)); [cbn [fst]; eauto|]. cbn [csv_entry tab_op]. unfold csv_open. change (os_file (hold fn (hold fn w))) with (os_file w). rewrite HW.
        destruct (C06_csv_opens_refuted iter rd fn (FileData data None)) as (e'' & ->). cbn [bind]. destruct (negb (errors_is e'' ENotInFormat)); cbn [fst]; eauto.
      + exfalso. cbn [open_tsv] in ET. destruct (scan_lines data None) as [l|? | |] eqn:SL; cbn [bind] in ET; try discriminate; [destruct (looks_good _ _ =? 1); discriminate|].
        unfold scan_lines in SL. repeat match type of SL with context [if ?b then _ else _] => destruct b end; discriminate.
      + exfalso. cbn [open_tsv] in ET. destruct (scan_lines data None) as [l|? | |] eqn:SL; cbn [bind] in ET; try discriminate; [destruct (looks_good _ _ =? 1); discriminate|].
        unfold scan_lines in SL. repeat match type of SL with context [if ?b then _ else _] => destruct b end; discriminate.
  Qed.
  Lemma passed_exact : (exists N, forall fuel, (N <= fuel)%nat -> exists e, xls_stream fuel sizes sp1 data None = Err e /\ on_chain ENotInFormat e) ->
    (forall rows, reads_as_text data rows -> opens_as rows) /\ ((forall rows, ~ reads_as_text data rows) -> refused).
  Proof.
    intros (N & H). split.
    - intros rows R. exists N. intros fuel hist Fu HP. destruct (H fuel Fu) as (e & E & NE). destruct (passed_on fuel e hist HP E NE) as [K _]. apply K. apply tsv_exact; eauto.
    - intros NR. exists N. intros fuel hist Fu HP. destruct (H fuel Fu) as (e & E & NE). destruct (passed_on fuel e hist HP E NE) as [_ K]. apply K. intros t ET. apply tsv_exact in ET; auto. destruct ET as (rows & R & _). exact (NR rows R).
  Qed.
  Lemma stream_missing : (exists N d e, forall fuel, (N <= fuel)%nat -> load fuel (mkSl data sp1) = Ok d /\ doc_open fuel d (bs "Workbook") = Err e) ->
    exists N, forall fuel, (N <= fuel)%nat -> exists e, xls_stream fuel sizes sp1 data None = Err e /\ on_chain ENotInFormat e.
  Proof.
    intros (N & d & e & H). exists N. intros fuel Fu. destruct (H fuel Fu) as [H1 H2]. exists (wrap_err [e; ENotInFormat]). unfold xls_stream. rewrite H1. cbn [bind]. rewrite H2. split; [reflexivity|].
    apply nif. reflexivity.
  Qed.

  (** ** C98 *)
  (** A file that is neither a compound file nor an archive is opened as text exactly if it reads as text. *)
  Theorem C98_text : ~ compound data ->
    (forall rows, reads_as_text data rows -> opens_as rows) /\ ((forall rows, ~ reads_as_text data rows) -> refused).
  Proof.
    intros NC. apply passed_exact. exists 0%nat. intros fuel _. exists ENotInFormat. unfold xls_stream.
    rewrite (proj2 (C38_not_in_format fuel data sp1) (proj1 (not_compound data) NC)). split; [reflexivity|]. apply nif. reflexivity.
  Qed.
  (** A compound file with a header that is not accepted is an error. *)
  Theorem C98_header : forall fuel e hist, compound data -> Permutation hist (stock fuel sizes sp1 sp2 sp3 unzip order iter rd) ->
    load fuel (mkSl data sp1) = Err e -> ~ on_chain ENotInFormat e /\ fst (open_file (registered srt hist) fn w) = Err e.
  Proof.
    intros fuel e hist C HP E. assert (NE : e <> ENotInFormat) by (intros ->; apply C38_not_in_format in E; apply not_compound in E; contradiction).
    assert (LF : errors_is e ENotInFormat = false) by (destruct (load_err _ _ _ E) as [?|(n & ->)]; [contradiction|reflexivity]).
    split; [intros Q; apply nif in Q; congruence|].
    rewrite (stock_table fuel sizes sp1 sp2 sp3 unzip order iter rd srt hist HS HP). unfold stock. cbn [open_file xls_entry tab_op]. unfold xls_open. rewrite HW. unfold xls_stream. rewrite E. cbn [bind]. rewrite LF. reflexivity.
  Qed.

  (** Violated: a compound file without a stream named Workbook — a word-processing document, an
      installer, a workbook of an older version — is not refused but read as text, ... *)
  Theorem C98_foreign_refuted : forall major fat1 fat2 mini firstdir es, bytes_ok data ->
    cfb_header data major fat1 fat2 mini firstdir -> dir_at data major firstdir es ->
    (forall n st sz, In (n, 2, st, sz) es -> string_of_runes n <> bs "Workbook") ->
    (forall rows, reads_as_text data rows -> opens_as rows) /\ ((forall rows, ~ reads_as_text data rows) -> refused).
  Proof.
    intros major fat1 fat2 mini firstdir es B H HD HN. apply passed_exact, stream_missing.
    destruct (C41_unlisted_not_found data sp1 _ _ _ _ _ _ (bs "Workbook") B H HD HN) as (N & d & K). eauto.
  Qed.
  (** ... and so is a workbook whose chain of sectors ends too early, ... *)
  Theorem C98_short_refuted : forall major fat1 fat2 mini firstdir es start size l, bytes_ok data ->
    cfb_header data major fat1 fat2 mini firstdir -> dir_at data major firstdir es ->
    first_named es (bs "Workbook") start size -> 4096 <= size ->
    chain (fat_of data (sec_bytes major) (fat1 ++ fat2)) start l -> Forall (in_file data (sec_bytes major)) l -> zlen l * sec_bytes major < size ->
    (forall rows, reads_as_text data rows -> opens_as rows) /\ ((forall rows, ~ reads_as_text data rows) -> refused).
  Proof.
    intros major fat1 fat2 mini firstdir es start size l B H HD HN HZ W HF HL2. apply passed_exact, stream_missing.
    destruct (C36_short_chain data sp1 _ _ _ _ _ _ _ _ _ _ B H HD HN HZ W HF HL2) as (N & d & K). change (string_of_runes (bs "Workbook")) with (bs "Workbook") in K. eauto.
  Qed.
  (** ... or leads out of the file: a file that was cut off. *)
  Theorem C98_cut_refuted : forall major fat1 fat2 mini firstdir es start size l s, bytes_ok data ->
    cfb_header data major fat1 fat2 mini firstdir -> dir_at data major firstdir es ->
    first_named es (bs "Workbook") start size -> 4096 <= size ->
    walk (fat_of data (sec_bytes major) (fat1 ++ fat2)) (l ++ [s]) -> start = hd s l -> Forall (in_file data (sec_bytes major)) l -> zlen l * sec_bytes major < size ->
    s < 4294967291 -> zlen data < (1 + s) * sec_bytes major ->
    (forall rows, reads_as_text data rows -> opens_as rows) /\ ((forall rows, ~ reads_as_text data rows) -> refused).
  Proof.
    intros major fat1 fat2 mini firstdir es start size l s B H HD HN HZ W ES HF HL2 S1 S2. apply passed_exact, stream_missing.
    destruct (cut_chain data sp1 _ _ _ _ _ _ _ _ _ _ _ B H HD HN HZ W ES HF HL2 S1 S2) as (N & d & K). change (string_of_runes (bs "Workbook")) with (bs "Workbook") in K. eauto.
  Qed.
End Passed.

(** ** Examples *)
(** the workbook of P_open, with its stream named Book (as versions before 97 do) *)
Definition exr_file : bytes :=
  hdr_bytes 3 1 1 2 1 ENDOFCHAIN 0 [0] ++ flat_map put32 exo_fat ++
  (ex_entry ex_root 5 4 1024 ++ ex_entry (bs "Book") 2 0 544 ++ repeat 0 256) ++
  flat_map put32 exo_minifat ++ (zdrop 512 exo_content ++ repeat 7 480) ++ ztake 512 exo_content.
Definition exr_es := [(ex_root, 5, 4, 1024); (bs "Book", 2, 0, 544)].
Lemma exr_bytes : bytes_ok exr_file.
Proof.
  assert (F : forallb (fun b => (0 <=? b) && (b <? 256)) exr_file = true) by (vm_compute; reflexivity).
  apply Forall_forall. intros x Hx. rewrite forallb_forall in F. specialize (F x Hx). lia.
Qed.
Lemma exr_header : cfb_header exr_file 3 [0] [] (Some 2) 1.
Proof.
  constructor.
  - apply Z.leb_le. vmr.
  - vmr.
  - split; vmr.
  - split; [auto|vmr].
  - vmr.
  - vmr.
  - vmr.
  - vmr.
  - intros _. vmr.
  - split; vmr.
  - vmr.
  - vmr.
  - split; [vmr|split; [vmr|apply in_file_b; vmr]].
  - exists []. split; [vmr|]. split; [vmr|].
    replace (field exr_file 68 4) with ENDOFCHAIN by vmr. constructor.
  - apply Z.leb_le. vmr.
  - intros i Hi. assert (F : forallb (fun i => field exr_file (76 + 4 * Z.of_nat i) 4 =? nth i [0] FREESECT) (seq 0 109) = true) by vmr.
    rewrite forallb_forall in F. apply Z.eqb_eq. apply F. apply in_seq. lia.
  - constructor; [apply in_file_b; vmr|constructor].
Qed.
Example ex_C98_book : dir_at exr_file 3 1 exr_es /\ (forall n st sz, In (n, 2, st, sz) exr_es -> string_of_runes n <> bs "Workbook") /\
  match open_file exo_stock (bs "old.xls") (mkOs (fun _ => FileData exr_file None) []) with
  | (Ok (SrcSimple t), _) => sf_rows t <> [] /\ reads_as_text exr_file (sf_rows t)
  | _ => False
  end.
Proof.
  split; [|split].
  - split; [apply in_file_b; vmr|]. unfold exr_es. cbn [directory].
    split; [apply dir_entry_b; vmr|]. split; [apply dir_entry_b; vmr|]. right. vmr.
  - intros n st sz [[= <- _ _]|[[= <- _ _]|[]]]; discriminate.
  - destruct (open_file exo_stock (bs "old.xls") (mkOs (fun _ => FileData exr_file None) [])) as [r w] eqn:E.
    assert (T : exists t, open_tsv (fun l => l) (bs "old.xls") (FileData exr_file None) = Ok t /\ r = Ok (SrcSimple t) /\ sf_rows t <> []).
    { destruct (open_tsv (fun l => l) (bs "old.xls") (FileData exr_file None)) as [t| | |] eqn:T; [|vm_compute in T; discriminate T..].
      exists t. split; [reflexivity|]. vm_compute in T. injection T as <-. split; [|discriminate]. vm_compute in E. injection E as <- _. reflexivity. }
    destruct T as (t & T1 & -> & T2). split; [exact T2|]. apply (tsv_exact (fun l => l) (bs "old.xls") exr_file t) in T1.
    + destruct T1 as (rows & R & ->). exact R.
    + intros m. apply Permutation_refl.
    + apply Z.leb_le. vmr.
Qed.
(** a workbook of 5000 bytes, of whose file only the first 1536 bytes are left *)
Definition exc_file : bytes :=
  hdr_bytes 3 1 1 ENDOFCHAIN 0 ENDOFCHAIN 0 [0] ++ flat_map put32 ([4294967293; ENDOFCHAIN; FREESECT; 4; 5; 6; 7; 8; 9; 10; 11; 12; ENDOFCHAIN] ++ repeat FREESECT 115) ++
  (ex_entry ex_root 5 ENDOFCHAIN 0 ++ ex_entry (bs "Workbook") 2 3 5000 ++ repeat 0 256).
Definition exc_es := [(ex_root, 5, ENDOFCHAIN, 0); (bs "Workbook", 2, 3, 5000)].
Lemma exc_bytes : bytes_ok exc_file.
Proof.
  assert (F : forallb (fun b => (0 <=? b) && (b <? 256)) exc_file = true) by (vm_compute; reflexivity).
  apply Forall_forall. intros x Hx. rewrite forallb_forall in F. specialize (F x Hx). lia.
Qed.
Lemma exc_header : cfb_header exc_file 3 [0] [] None 1.
Proof.
  constructor.
  - apply Z.leb_le. vmr.
  - vmr.
  - split; vmr.
  - split; [auto|vmr].
  - vmr.
  - vmr.
  - vmr.
  - vmr.
  - intros _. vmr.
  - split; vmr.
  - vmr.
  - vmr.
  - split; vmr.
  - exists []. split; [vmr|]. split; [vmr|].
    replace (field exc_file 68 4) with ENDOFCHAIN by vmr. constructor.
  - apply Z.leb_le. vmr.
  - intros i Hi. assert (F : forallb (fun i => field exc_file (76 + 4 * Z.of_nat i) 4 =? nth i [0] FREESECT) (seq 0 109) = true) by vmr.
    rewrite forallb_forall in F. apply Z.eqb_eq. apply F. apply in_seq. lia.
  - constructor; [apply in_file_b; vmr|constructor].
Qed.
Example ex_C98_cut : dir_at exc_file 3 1 exc_es /\ first_named exc_es (bs "Workbook") 3 5000 /\ zlen exc_file < (1 + 3) * sec_bytes 3 /\
  match open_file exo_stock (bs "cut.xls") (mkOs (fun _ => FileData exc_file None) []) with
  | (Ok (SrcSimple t), _) => zlen (sf_rows t) = 2
  | _ => False
  end.
Proof.
  split; [|split; [|split]].
  - split; [apply in_file_b; vmr|]. unfold exc_es. cbn [directory].
    split; [apply dir_entry_b; vmr|]. split; [apply dir_entry_b; vmr|]. right. vmr.
  - exists [(ex_root, 5, ENDOFCHAIN, 0)], []. split; [reflexivity|]. intros n ty st sz [[= <- <- <- <-]|[]] Q. discriminate.
  - apply Z.ltb_lt. vmr.
  - vmr.
Qed.
Print Assumptions C98_text.
Print Assumptions C98_header.
Print Assumptions C98_foreign_refuted.
Print Assumptions C98_short_refuted.
Print Assumptions C98_cut_refuted.

(** * P_xls: properties C50 (cells), C51 (merged regions), C52 (sheet listing and lookup),
    C53 (shared string references), C55 (use after Close), C32 (1904 dates), C68 (formula texts)
    for the XLS reader. *)
From Verif Require Import GoBase L_base GoFloat L_float GoUnicode GoTime M_grate M_value M_dates M_fmt M_formats M_cell M_sheet S_cell L_cell S_sheet L_sheet
  S_grid L_grid S_crypto M_biff S_biff L_biff P_biff M_xlstr S_xlstr L_xlstr M_hlink S_hlink L_hlink M_xls S_xls P_xlstr P_hlink L_xls L_xlsbook.
From Coq Require Import Lia ZifyBool ZifyNat Permutation.
Local Opaque f_of_bits fdiv f_of_Z put set_value fx_add.

(** ** C50, C52 *)
(** One substream, as loaded: the sheet shows at every position the last record addressing it. *)
Theorem C50_cells : forall w ss l sh, reach_fx (wb_fx w) -> Forall w16 (wb_xfs w) -> idx (wb_streams w) ss = Ok l -> typed l (xs_recs sh) -> xs_ok (zlen (wb_strings w)) sh ->
  exists s, parse_sheet w ss = Ok (Some s) /\ displays (wb_fx w) (xs_writes go_trim (wb_strings w) (wb_xfs w) sh) (xs_rows sh) (xs_cols sh) s.
Proof. exact parse_sheet_ok. Qed.

Definition sheet_name (s : Z * Z * Z * gostr) : gostr := snd s.
Definition book_strings (G : list grec) : list gostr := match g_strings G with Some l => l | None => [] end.
(** the formats of the file added to the built-in ones *)
Definition book_formats (G : list grec) : formatter := fold_left (fun x f => fst (fx_add x (fst f) (snd f))) (g_formats G) new_formatter.

Lemma globals_group : forall p G q, Forall grec_ok G -> group (globals_recs p G q) /\ Forall (fun r => fst r <> FILEPASS) (globals_recs p G q).
Proof.
  intros p G q F.
  assert (T : Forall (fun r => fst r <> BOF /\ fst r <> EOFR /\ fst r <> FILEPASS) (flat_map grec_recs G)).
  { induction F as [|g G OK F IH]; cbn [flat_map]; [constructor|]. apply Forall_app. split; [|exact IH].
    assert (CT : forall ps, Forall (fun r : frec => fst r <> BOF /\ fst r <> EOFR /\ fst r <> FILEPASS) (map (fun q => (CONTINUE, q)) ps)).
    { intros ps. apply Forall_forall. intros x Hx. apply in_map_iff in Hx. destruct Hx as (y & <- & _). repeat split; discriminate. }
    destruct g; cbn [grec_recs grec_ok] in *; try (constructor; [repeat split; discriminate|constructor]).
    - destruct (sst_records total items); constructor; [repeat split; discriminate|apply CT].
    - constructor; [|apply CT]. cbn [fst]. destruct OK as (N & N1 & N2 & _). unfold global_types in N. cbn [In] in N. repeat split; auto; intuition. }
  unfold globals_recs. split.
  - exists p, (flat_map grec_recs G), q. split; [reflexivity|]. induction T as [|[ty r] l (H1 & H2 & _) T IH]; [constructor|]. constructor; auto.
  - constructor; [discriminate|]. apply Forall_app. split; [eapply Forall_impl; [|exact T]; cbn; tauto|]. constructor; [discriminate|constructor].
Qed.
Lemma get_loop_first : forall w a pos h t name b, ~ In name (map sheet_name a) ->
  get_loop w (map as_bsheet (a ++ (pos, h, t, name) :: b)) name = parse_sheet w (match zfind pos (wb_map w) with Some k => k | None => 0 end).
Proof.
  intros w a pos h t name b N. induction a as [|[[[p1 h1] t1] n1] a IH]; cbn [app map as_bsheet get_loop bs_name bs_pos].
  - rewrite str_eqb_refl. reflexivity.
  - cbn [map sheet_name snd In] in N. destruct (str_eqb n1 name) eqn:E; [apply str_eqb_eq in E; exfalso; apply N; left; exact E|]. apply IH. intros Q. apply N. right. exact Q.
Qed.
Lemma get_loop_none : forall w l name, ~ In name (map sheet_name l) -> get_loop w (map as_bsheet l) name = Err ESheetNotFound.
Proof.
  intros w l name N. induction l as [|[[[p1 h1] t1] n1] l IH]; cbn [map as_bsheet get_loop bs_name]; [reflexivity|].
  cbn [map sheet_name snd In] in N. destruct (str_eqb n1 name) eqn:E; [apply str_eqb_eq in E; exfalso; apply N; left; exact E|]. apply IH. intros Q. apply N. right. exact Q.
Qed.
Lemma visible_shown : forall s, visible (as_bsheet s) = shown s.
Proof. intros [[[p h] t] n]. unfold visible, shown. cbn [as_bsheet bs_hidden]. change 3 with (Z.ones 2). rewrite Z.land_ones by lia. reflexivity. Qed.
Lemma names_shown : forall l f g, (forall s, f (as_bsheet s) = g s) -> map bs_name (filter f (map as_bsheet l)) = map sheet_name (filter g l).
Proof.
  intros l f g H. induction l as [|[[[p h] t] n] l IH]; [reflexivity|]. cbn [map filter]. rewrite H. destruct (g (p, h, t, n)); cbn [map]; rewrite IH; reflexivity.
Qed.
Lemma typed_of : forall st n g, Forall (Forall (fun r => b_size r = sl_len (b_data r))) (st_streams st) -> nth_error (streams_of st) n = Some g ->
  exists l, idx (st_streams st) (Z.of_nat n) = Ok l /\ typed l g.
Proof.
  intros st n g F N. unfold streams_of in N. rewrite nth_error_map in N. destruct (nth_error (st_streams st) n) as [l|] eqn:E; [|discriminate]. cbn [option_map] in N. injection N as <-.
  exists l. split; [apply idx_ok; [lia|rewrite Nat2Z.id; exact E]|]. split; [reflexivity|]. rewrite Forall_forall in F. apply F. eapply nth_error_In. exact E.
Qed.

(** A whole workbook stream: globals, then the other substreams.  Opening it succeeds; List and
    ListHidden name the visible and the other sheets in order; Get of a name reads the substream
    at the position given by the first sheet of that name and shows its cells, with the workbook's
    shared strings and formats; Get of another name is an error. *)
Theorem C52_workbook : forall p G q rest tail sp sp2, bof_ok p -> Forall grec_ok G -> Forall (Forall local_rec) rest -> Forall group rest ->
  let gs := globals_recs p G q :: rest in
  Forall (Forall (rec_fits 65531)) gs -> zlen tail < 4 ->
  exists w, load_workbook (mkSl (stream (concat gs) ++ tail) sp) sp2 = Ok w /\
    wb_list w = map sheet_name (filter shown (g_sheets G)) /\
    wb_list_hidden w = map sheet_name (filter (fun s => negb (shown s)) (g_sheets G)) /\
    (forall a pos h t name b n sh, g_sheets G = a ++ (pos, h, t, name) :: b -> ~ In name (map sheet_name a) ->
       pos = offset gs n -> nth_error gs n = Some (xs_recs sh) -> xs_ok (zlen (book_strings G)) sh ->
       exists s, wb_get w name = Ok (Some s) /\ displays (book_formats G) (xs_writes go_trim (book_strings G) (g_xfs G) sh) (xs_rows sh) (xs_cols sh) s) /\
    (forall name, ~ In name (map sheet_name (g_sheets G)) -> wb_get w name = Err ESheetNotFound).
Proof.
  intros p G q rest tail sp sp2 B FG FL GR gs FF HT. destruct (globals_group p G q FG) as [GG NG].
  assert (FR : Forall (Forall (fun r : frec => fst r <> FILEPASS)) rest).
  { eapply Forall_impl; [|exact FL]. intros l Hl. eapply Forall_impl; [|exact Hl]. intros r [N _] E. apply N. rewrite E. unfold global_types. cbn [In]. tauto. }
  destruct (C46_substreams gs tail sp sp2) as (st & E & S & Z & M); auto; try (constructor; auto).
  unfold load_workbook. rewrite E. cbn [bind].
  unfold streams_of in S. destruct (st_streams st) as [|l0 ls] eqn:ES; [discriminate|]. unfold gs in S. cbn [map] in S. pose proof (f_equal (hd []) S) as S0. pose proof (f_equal (@tl _) S) as S1. cbn [hd tl] in S0, S1. apply Forall_cons_iff in Z. destruct Z as [Z0 Z1].
  cbn [load_streams]. rewrite (load_globals p G q) by (auto; split; auto). cbn [bind].
  rewrite (load_locals (map (map payload) ls)) by (auto; rewrite <- S1 in FL; auto). set (w := fold_left after_g G (new_wbook st)).
  exists w. split; [reflexivity|].
  assert (WS : wb_sheets w = map as_bsheet (g_sheets G)) by (unfold w; rewrite after_sheets; reflexivity).
  unfold wb_list, wb_list_hidden, wb_get. rewrite WS. split; [apply names_shown, visible_shown|]. split; [apply names_shown; intros s; rewrite visible_shown; reflexivity|]. split.
  - intros a pos h t name b n sh HG NA HP HN OK. rewrite HG, get_loop_first by exact NA. destruct (after_frame G (new_wbook st)) as [W1 W2]. fold w in W1, W2. cbn [new_wbook wb_streams wb_map] in W1, W2. rewrite W2.
    assert (LN : (n < List.length gs)%nat) by (apply nth_error_Some; congruence).
    assert (ZF : zfind pos (st_map st) = Some (Z.of_nat n)) by (apply M; exists n; auto). rewrite ZF.
    destruct (typed_of st n (xs_recs sh)) as (l & I & T).
    { rewrite ES. constructor; auto. }
    { unfold streams_of. rewrite ES. cbn [map]. rewrite S0, S1. exact HN. }
    assert (WT : wb_strings w = book_strings G) by (unfold w; rewrite after_strings; reflexivity).
    assert (WX : wb_xfs w = g_xfs G) by (unfold w; rewrite after_xfs; reflexivity).
    assert (WF : wb_fx w = book_formats G) by (unfold w; rewrite after_fx; reflexivity).
    destruct (parse_sheet_ok w (Z.of_nat n) l sh) as (s & P & D).
    + rewrite WF. apply reach_formats. constructor.
    + rewrite WX. apply xfs_fit. exact FG.
    + rewrite W1. exact I.
    + exact T.
    + rewrite WT. exact OK.
    + rewrite WF, WT, WX in D. exists s. split; assumption.
  - intros name N. apply get_loop_none. exact N.
Qed.
(** List and ListHidden together name every sheet exactly once. *)
Theorem C52_partition : forall w, Permutation (wb_list w ++ wb_list_hidden w) (map bs_name (wb_sheets w)).
Proof.
  intros w. unfold wb_list, wb_list_hidden. rewrite <- map_app. apply Permutation_map. induction (wb_sheets w) as [|s l IH]; [reflexivity|]. cbn [filter]. destruct (visible s); cbn [negb app].
  - constructor. exact IH.
  - rewrite <- Permutation_middle. constructor. exact IH.
Qed.
(** A sheet whose position is not the start of a substream is read from the first substream. *)
Theorem C52_position_refuted : forall w a pos h t name b, wb_sheets w = map as_bsheet (a ++ (pos, h, t, name) :: b) -> ~ In name (map sheet_name a) ->
  zfind pos (wb_map w) = None -> wb_get w name = parse_sheet w 0.
Proof. intros w a pos h t name b E N Z. unfold wb_get. rewrite E, get_loop_first by exact N. rewrite Z. reflexivity. Qed.

(** ** C51 *)
Lemma last_write_In : forall l r c w, last_write l r c = Some w -> In (r, c, w) l.
Proof.
  induction l as [|[[r' c'] w'] l IH]; intros r c w E; [discriminate|]. cbn [last_write] in E. destruct (last_write l r c) as [x|] eqn:L.
  - injection E as ->. right. apply IH. exact L.
  - destruct (Z.eqb_spec r' r), (Z.eqb_spec c' c); cbn [andb] in E; try discriminate. injection E as ->. subst. left. reflexivity.
Qed.
Lemma last_write_some : forall l r c w, In (r, c, w) l -> (forall w', In (r, c, w') l -> w' = w) -> last_write l r c = Some w.
Proof.
  intros l r c w I U. destruct (last_write l r c) as [x|] eqn:L; [apply last_write_In in L; rewrite (U x L); reflexivity|]. exfalso. revert I L. clear U. induction l as [|[[r' c'] w'] l IH]; intros I L; [destruct I|].
  cbn [last_write] in L. destruct (last_write l r c) eqn:L2; [discriminate|]. destruct I as [E|I]; [|apply IH; auto]. injection E as -> -> ->. rewrite !Z.eqb_refl in L. discriminate.
Qed.
Lemma last_write_none : forall l r c, (forall w, ~ In (r, c, w) l) -> last_write l r c = None.
Proof. intros l r c N. destruct (last_write l r c) as [x|] eqn:L; [|reflexivity]. apply last_write_In in L. elim (N x L). Qed.
Lemma in_zrange : forall a b x, In x (zrange a b) <-> a <= x <= b.
Proof.
  intros a b x. unfold zrange. rewrite in_map_iff. split.
  - intros (i & <- & Hi). apply in_seq in Hi. lia.
  - intros H. exists (Z.to_nat (x - a)). split; [lia|]. apply in_seq. lia.
Qed.
Lemma in_region : forall r0 r1 c0 c1 r c w tl, In (r, c, w) (region_cells (r0, r1, c0, c1) tl) <->
  r0 <= r <= r1 /\ c0 <= c <= c1 /\ ((r, c) = (r0, c0) /\ In w tl \/ (r, c) <> (r0, c0) /\ w = WPut (GStr (mark_at r1 c0 c1 r c)) 0).
Proof.
  intros. unfold region_cells. rewrite in_flat_map. split.
  - intros (r' & Hr & H). apply in_flat_map in H. destruct H as (c' & Hc & H). apply in_map_iff in H. destruct H as (w' & E & H). injection E as -> -> ->. apply in_zrange in Hr. apply in_zrange in Hc. split; [auto|]. split; [auto|].
    destruct (Z.eqb_spec r r0), (Z.eqb_spec c c0); cbn [andb] in H; try (right; split; [congruence|]; destruct H as [<-|[]]; reflexivity). left. subst. auto.
  - intros (Hr & Hc & H). exists r. split; [apply in_zrange; auto|]. apply in_flat_map. exists c. split; [apply in_zrange; auto|]. apply in_map_iff. exists w. split; [reflexivity|].
    destruct H as [[E H]|[E ->]].
    + injection E as -> ->. rewrite !Z.eqb_refl. exact H.
    + destruct (Z.eqb_spec r r0), (Z.eqb_spec c c0); cbn [andb]; try (left; reflexivity). congruence.
Qed.
(** the text at (r, c) of a merged region, for positions other than the top left one *)
Definition region_text (r0 r1 c0 c1 r c : Z) (t : gostr) : Prop :=
  (c = c0 /\ r < r1 /\ t = bs "↓") \/ (c = c0 /\ r = r1 /\ t = bs "⤓") \/ (c0 < c < c1 /\ t = bs "→") \/ (c0 < c /\ c = c1 /\ t = bs "⇥").
Lemma mark_text : forall r0 r1 c0 c1 r c, r0 <= r <= r1 -> c0 <= c <= c1 -> region_text r0 r1 c0 c1 r c (mark_at r1 c0 c1 r c).
Proof.
  intros. unfold mark_at, region_text. destruct (Z.eqb_spec c c0); [destruct (Z.eqb_spec r r1)|destruct (Z.eqb_spec c c1)].
  - right. left. auto.
  - left. repeat split; auto. lia.
  - right. right. right. repeat split; auto. lia.
  - right. right. left. repeat split; auto; lia.
Qed.
(** A sheet built by writes that include a merged region, not written to afterwards: all its
    positions but the first show the marks; the first position and everything outside show what
    the other writes left there. *)
Theorem C51_marks : forall x A B r0 r1 c0 c1 rows cols s, 0 <= r0 -> 0 <= c0 ->
  displays x (A ++ region_cells (r0, r1, c0, c1) [] ++ B) rows cols s ->
  (forall r c, r0 <= r <= r1 -> c0 <= c <= c1 -> (r, c) <> (r0, c0) -> last_write B r c = None) ->
  exists grid, delivers raw s grid /\
    (forall r c, r0 <= r <= r1 -> c0 <= c <= c1 -> (r, c) <> (r0, c0) ->
       exists row t, nth_error grid (Z.to_nat r) = Some row /\ nth_error row (Z.to_nat c) = Some [GStr t; GCType StaticCell] /\ region_text r0 r1 c0 c1 r c t) /\
    (forall r c row cl, nth_error grid r = Some row -> nth_error row c = Some cl ->
       ~ (r0 <= Z.of_nat r <= r1 /\ c0 <= Z.of_nat c <= c1) \/ (Z.of_nat r, Z.of_nat c) = (r0, c0) ->
       match last_write (A ++ B) (Z.of_nat r) (Z.of_nat c) with Some w => wrote x w cl | None => cl = [] end).
Proof.
  intros x A B r0 r1 c0 c1 rows cols s P1 P2 (_ & _ & grid & D & C & V & _) NB. exists grid. split; [exact D|]. split.
  - intros r c Hr Hc N. assert (L : last_write (A ++ region_cells (r0, r1, c0, c1) [] ++ B) r c = Some (WPut (GStr (mark_at r1 c0 c1 r c)) 0)).
    { rewrite !last_write_app, NB by auto. rewrite (last_write_some (region_cells (r0, r1, c0, c1) []) r c (WPut (GStr (mark_at r1 c0 c1 r c)) 0)); [reflexivity| |].
      - apply in_region. split; [auto|]. split; [auto|]. right. auto.
      - intros w' I. apply in_region in I. destruct I as (_ & _ & [[E _]|[_ ->]]); [congruence|reflexivity]. }
    destruct (V r c) as (row & cl & Er & Ec); [left; congruence|]. specialize (C _ _ _ _ Er Ec). rewrite !Z2Nat.id in C by lia. rewrite L in C. cbn [wrote] in C.
    pose proof (mark_text r0 r1 c0 c1 r c Hr Hc) as T. exists row, (mark_at r1 c0 c1 r c). split; [exact Er|]. split; [|exact T].
    destruct C as [[_ ->]|[M _]]; [exact Ec|]. exfalso. apply M. unfold merge_mark. destruct T as [(_ & _ & ->)|[(_ & _ & ->)|[(_ & ->)|(_ & _ & ->)]]]; tauto.
  - intros r c row cl Er Ec Out. specialize (C _ _ _ _ Er Ec). rewrite last_write_app, last_write_app in C. rewrite last_write_app. destruct (last_write B (Z.of_nat r) (Z.of_nat c)); [exact C|].
    rewrite (last_write_none (region_cells (r0, r1, c0, c1) [])) in C; [exact C|]. intros w I. apply in_region in I. destruct I as (I1 & I2 & [[_ []]|[N _]]). destruct Out; [tauto|congruence].
Qed.
(** A MergeCells record of an XLS sheet gives such writes, after those of the records before it. *)
Theorem C51_xls : forall trim strs xfs sh pre ga g gb tail post, xs_all sh = pre ++ CMerge (ga ++ g :: gb) tail :: post ->
  let W := flat_map (crec_writes trim strs xfs (xs_rows sh) (xs_cols sh)) in
  xs_writes trim strs xfs sh = (W (pre ++ [CMerge ga tail])) ++ region_cells (clip (xs_rows sh) (xs_cols sh) g) [] ++ (W (CMerge gb tail :: post)).
Proof.
  intros trim strs xfs sh pre ga g gb tail post E W. unfold xs_writes. rewrite E. unfold W. rewrite !flat_map_app. cbn [flat_map crec_writes]. rewrite flat_map_app. cbn [flat_map]. rewrite app_nil_r, <- !app_assoc. reflexivity.
Qed.

(** ** C53, C68: a sheet up to a record that fails *)
Lemma parse_prefix : forall w ss l sh before bad after, reach_fx (wb_fx w) -> Forall w16 (wb_xfs w) -> idx (wb_streams w) ss = Ok l -> typed l (xs_recs sh) ->
  Forall (crec_ok 4294967296) (xs_pre sh) -> dims_ok (xs_dims sh) -> xs_cells sh = before ++ bad :: after ->
  Forall (crec_ok (zlen (wb_strings w))) (xs_pre sh ++ before) -> Forall (crec_ok 4294967296) after -> 
  (forall l rest s mr mc, typed l (crec_recs bad) -> scan_dims (l ++ rest) false 0 s mr mc = scan_dims rest false 0 s mr mc) ->
  (exists ty p fs, crec_recs bad = (ty, p) :: fs /\ ty <> CONTINUE) ->
  exists s row col ucap lb la, wf s /\ sh_fx s = wb_fx w /\ sh_cur s = 0 /\ (forall r c, cell_long (content s r c)) /\ 8224 <= ucap /\ typed lb (crec_recs bad) /\ no_cont la /\
    parse_sheet w ss = (st <- sheet_recs w (xs_rows sh) (xs_cols sh) (lb ++ la) false 0 (mkPst s row col ucap) ;; Ok (Some (p_sheet st))).
Proof.
  intros w ss l sh before bad after HX HF HI T FP D EC FB FA SB HB. unfold xs_recs in T. start T sz d l0 Ed Es. apply typed_app in T. destruct T as (la & l1 & -> & TA & T). apply typed_app in T. destruct T as (ld & l2 & -> & TD & T). apply typed_app in T. destruct T as (lc & l3 & -> & TC & TE).
  start TE sz3 d3 l4 Ed3 Es3. apply typed_nil in TE. subst l4. apply Forall_app in FB. destruct FB as [FB1 FB2].
  rewrite EC, flat_map_app in TC. cbn [flat_map] in TC. apply typed_app in TC. destruct TC as (lc1 & lc2 & -> & TC1 & TC). apply typed_app in TC. destruct TC as (lb & lc3 & -> & TB & TC3).
  set (mr := xs_rows sh). set (mc := xs_cols sh).
  set (s0 := match xs_dims sh with None => empty_sheet (wb_fx w) | Some _ => resize (empty_sheet (wb_fx w)) mr mc end).
  unfold parse_sheet. rewrite HI. cbn [bind].
  set (eofr := {| b_type := EOFR; b_size := sz3; b_data := d3 |}) in *.
  assert (SD : scan_dims ({| b_type := BOF; b_size := sz; b_data := d |} :: la ++ ld ++ (lc1 ++ lb ++ lc3) ++ [eofr]) true 0 (empty_sheet (wb_fx w)) 0 0 = Ok (Some (s0, mr, mc))).
  { cbn [scan_dims b_type]. change (0 <? 0) with false. zdec. rewrite (scan_crecs (xs_pre sh) 4294967296) by auto.
    assert (SR : forall s mr mc, scan_dims ((lc1 ++ lb ++ lc3) ++ [eofr]) false 0 s mr mc = Ok (Some (s, mr, mc))).
    { intros. rewrite <- !app_assoc. rewrite (scan_crecs before (zlen (wb_strings w))) by auto. rewrite SB by auto. rewrite (scan_crecs after 4294967296) by auto. reflexivity. }
    unfold s0, mr, mc, xs_rows, xs_cols in *. destruct (xs_dims sh) as [[[[[r0 mr'] c0] mc'] tl]|]; cbn [dims_recs dims_ok] in *.
    - destruct D as (W1 & W2 & W3 & W4). start TD szd dd ld' Edd Esd. apply typed_nil in TD. subst ld'. cbn [app scan_dims b_type b_data]. change (0 <? 0) with false. zdec.
      rewrite (field32_at dd [] r0 _ 0 Edd) by auto. rewrite (field32_at dd (put32 r0) mr' _ 4 Edd) by auto. cbn [bind].
      erewrite (field16_at dd (put32 r0 ++ put32 mr') c0); [|rewrite <- app_assoc; exact Edd|reflexivity|auto]. cbn [bind].
      rewrite (field16_at dd (put32 r0 ++ put32 mr' ++ put16 c0) mc' tl 10); [|rewrite <- !app_assoc; exact Edd|reflexivity|auto]. cbn [bind]. apply SR.
    - apply typed_nil in TD. subst ld. cbn [app]. apply SR. }
  rewrite SD. cbn [bind]. cbn [sheet_recs b_type]. change (0 <? 0) with false. change (BOF =? RecTypeBOF) with true. cbv iota.
  rewrite <- !app_assoc in *.
  assert (NE : no_cont (lc3 ++ [eofr])) by (apply (no_cont_crecs after 4294967296); auto; discriminate).
  assert (NBAD : no_cont (lb ++ lc3 ++ [eofr])).
  { destruct HB as (ty & p & fs & E & N). rewrite E in TB. start TB szb db lb' Edb Esb. exact N. }
  assert (ND : no_cont (ld ++ lc1 ++ lb ++ lc3 ++ [eofr])).
  { destruct (xs_dims sh) as [[[[[r0 mr'] c0] mc'] tl]|]; cbn [dims_recs] in TD; [start TD szd dd ld' Edd Esd; discriminate|]. apply typed_nil in TD. subst ld. cbn [app]. apply (no_cont_crecs before (zlen (wb_strings w))); auto. }
  destruct (crecs_steps w mr mc (xs_pre sh) la (ld ++ lc1 ++ lb ++ lc3 ++ [eofr]) (mkPst s0 0 0 8224) FB1 TA ND) as (row & col & ucap & HU & E); [cbn; lia|]. rewrite E. cbn [p_sheet].
  assert (DS : forall r st, sheet_recs w mr mc (ld ++ r) false 0 st = sheet_recs w mr mc r false 0 st).
  { intros r st. destruct (xs_dims sh) as [[[[[r0 mr'] c0] mc'] tl]|]; cbn [dims_recs] in TD; [|apply typed_nil in TD; subst ld; reflexivity]. start TD szd dd ld' Edd Esd. apply typed_nil in TD. subst ld'. reflexivity. }
  set (WS := flat_map (crec_writes go_trim (wb_strings w) (wb_xfs w) mr mc)) in *.
  assert (GW : Forall good_write (WS (xs_pre sh) ++ WS before)) by (apply Forall_app; split; apply good_crecs; auto).
  assert (S0 : wf s0 /\ sh_fx s0 = wb_fx w /\ sh_cur s0 = 0 /\ (forall r c, content s0 r c = [])).
  { unfold s0, mr, mc, xs_rows, xs_cols. destruct (xs_dims sh) as [[[[[r0 mr'] c0] mc'] tl]|]; cbn [dims_ok] in D.
    - unfold w32, w16 in D. destruct (grows_wf (empty_sheet (wb_fx w)) [OResize mr' mc']) as (s2 & R & W & Fx); auto; [constructor; cbn; try lia; constructor|apply wf_empty|]. cbn [run_ops run_op bind] in R. injection R as <-.
      repeat split; auto. intros. apply resize_content_blank. reflexivity.
    - repeat split; auto; [apply wf_empty|intros; apply content_empty]. }
  destruct S0 as (W0 & F0 & C0 & B0).
  destruct (run_writes_ok (wb_fx w) (WS (xs_pre sh) ++ WS before) s0 HX W0 F0 C0) as (s1 & R & W' & F2 & C' & L' & _); auto; [intros; left; apply B0|].
  rewrite run_writes_app in R. destruct (run_writes s0 (WS (xs_pre sh))) as [sa|er| |]; cbn [bind] in *; try discriminate. rewrite DS.
  destruct (crecs_steps w mr mc before lc1 (lb ++ lc3 ++ [eofr]) (mkPst sa row col ucap) FB2 TC1 NBAD HU) as (row2 & col2 & ucap2 & HU2 & E2). rewrite E2. cbn [p_sheet]. fold WS. rewrite R. cbn [bind].
  exists s1, row2, col2, ucap2, lb, (lc3 ++ [eofr]). repeat (split; [assumption|]). reflexivity.
Qed.
(** A LabelSst record that points beyond the string table: an error, except for the first
    position beyond it, which panics. *)
Theorem C53_label : forall w ss l sh before row col xf i after, reach_fx (wb_fx w) -> Forall w16 (wb_xfs w) -> idx (wb_streams w) ss = Ok l -> typed l (xs_recs sh) ->
  Forall (crec_ok 4294967296) (xs_all sh) -> dims_ok (xs_dims sh) -> xs_cells sh = before ++ CLabel row col xf i :: after -> Forall (crec_ok (zlen (wb_strings w))) (xs_pre sh ++ before) ->
  (zlen (wb_strings w) < i -> parse_sheet w ss = Err ESstIndex) /\ (i = zlen (wb_strings w) -> parse_sheet w ss = Panic).
Proof.
  intros w ss l sh before row col xf i after HX HF HI T FA D EC FB. unfold xs_all in FA. apply Forall_app in FA. destruct FA as [FP FC]. rewrite EC in FC. apply Forall_app in FC. destruct FC as [_ FC]. inversion FC as [|? ? OKB FC']; subst.
  destruct (parse_prefix w ss l sh before (CLabel row col xf i) after HX HF HI T FP D EC FB FC') as (s & r0 & c0 & ucap & lb & la & _ & _ & _ & _ & _ & TB & _ & E).
  { intros. eapply (scan_crec (CLabel row col xf i)); eauto. }
  { do 3 eexists. split; [reflexivity|discriminate]. }
  rewrite E. clear E. cbn [crec_recs crec_ok] in *. destruct OKB as (W1 & W2 & W3 & W4 & _). start TB sz d l' Ed Es. apply typed_nil in TB. subst l'. cbn [app]. rewrite step_rec by discriminate.
  unfold sheet_rec. cbn [b_type b_data p_sheet p_row p_col p_ucap]. zdec. destruct (coords_at d row col xf _ Ed W1 W2 W3) as (F1 & F2 & F3 & F4). rewrite F1, F2, F3. cbn [bind].
  rewrite (from32_at d (coords row col xf) i [] 6) by (rewrite ?app_nil_r; auto). cbn [bind]. split.
  - intros H. destruct (Z.ltb_spec (zlen (wb_strings w)) i); [reflexivity|lia].
  - intros ->. rewrite Z.ltb_irrefl. rewrite idx_out by lia. reflexivity.
Qed.
Theorem C53_boundary_refuted : forall w ss l sh before row col xf after, reach_fx (wb_fx w) -> Forall w16 (wb_xfs w) -> idx (wb_streams w) ss = Ok l -> typed l (xs_recs sh) ->
  Forall (crec_ok 4294967296) (xs_all sh) -> dims_ok (xs_dims sh) -> xs_cells sh = before ++ CLabel row col xf (zlen (wb_strings w)) :: after -> Forall (crec_ok (zlen (wb_strings w))) (xs_pre sh ++ before) ->
  parse_sheet w ss = Panic.
Proof. intros. eapply C53_label; eauto. Qed.

(** ** C68 *)
Definition high_surrogate (u : Z) : Prop := 55296 <= u < 56320.
(** the chunk does not end in the middle of a surrogate pair *)
Definition whole (us : list Z) : Prop := forall us' u, us = us' ++ [u] -> ~ high_surrogate u.
Lemma whole_cons : forall u us, us <> [] -> whole (u :: us) -> whole us.
Proof. intros u us N W us' x E. apply (W (u :: us') x). rewrite E. reflexivity. Qed.
Lemma whole_nil : whole [].
Proof. intros us' x E. destruct us'; discriminate. Qed.
Lemma utf16_decode_app : forall n us b, (List.length us <= n)%nat -> whole us -> utf16_decode (us ++ b) = utf16_decode us ++ utf16_decode b.
Proof.
  induction n as [|n IH]; intros [|u us] b H W; try reflexivity; [cbn in H; lia|]. cbn [List.length] in H. cbn [app utf16_decode].
  assert (W1 : whole us) by (destruct us as [|v us]; [apply whole_nil|apply (whole_cons u); [discriminate|exact W]]).
  destruct ((55296 <=? u) && (u <? 56320)) eqn:E1.
  - destruct us as [|v us].
    + exfalso. apply (W [] u eq_refl). unfold high_surrogate. lia.
    + cbn [app]. destruct ((56320 <=? v) && (v <? 57344)) eqn:E2.
      * cbn [app]. rewrite IH; [reflexivity|cbn in H; lia|]. destruct us as [|x us]; [apply whole_nil|apply (whole_cons v); [discriminate|exact W1]].
      * change (v :: us ++ b) with ((v :: us) ++ b). rewrite IH by (auto; lia). reflexivity.
  - rewrite IH by (auto; lia). destruct ((56320 <=? u) && (u <? 57344)); reflexivity.
Qed.
Lemma utf16_string_app : forall a b, whole a -> utf16_string (a ++ b) = utf16_string a ++ utf16_string b.
Proof. intros a b W. unfold utf16_string. rewrite (utf16_decode_app (List.length a)) by auto. unfold string_of_runes. apply flat_map_app. Qed.
Lemma ascii_whole : forall us, Forall (fun u => 0 <= u < 128) us -> whole us.
Proof. intros us F us' x E. subst us. apply Forall_app in F. destruct F as [_ F]. inversion F. unfold high_surrogate. lia. Qed.
Lemma ascii_string : forall us, Forall (fun u => 0 <= u < 128) us -> utf16_string us = us.
Proof.
  intros us F. unfold utf16_string, string_of_runes. induction F as [|u us H F IH]; [reflexivity|]. cbn [utf16_decode].
  destruct (Z.leb_spec 55296 u); [lia|]. destruct (Z.leb_spec 56320 u); [lia|]. cbn [andb flat_map]. rewrite IH. unfold utf8_enc.
  assert (V : valid_rune u = true) by (unfold valid_rune; lia). rewrite V. destruct (Z.ltb_spec u 128); [reflexivity|lia].
Qed.
(** The text of a formula is right when its 8-bit chunks are ASCII and no 16-bit chunk ends in
    the middle of a surrogate pair. *)
Definition chunk_fine (w : bool) (us : list Z) : Prop := if w then whole us else Forall (fun u => 0 <= u < 128) us.
Lemma fine_text : forall w us, chunk_fine w us -> chunk_text w us = utf16_string us /\ whole us.
Proof. intros [|] us H; cbn [chunk_fine chunk_text] in *; [auto|]. split; [symmetry; apply ascii_string; exact H|apply ascii_whole; exact H]. Qed.
Theorem C68_text : forall w us more, chunk_fine w us -> Forall (fun c => chunk_fine (snd (fst c)) (snd c)) more ->
  chunk_text w us ++ more_text more = utf16_string (us ++ flat_map snd more).
Proof.
  intros w us more H F. destruct (fine_text w us H) as [-> W]. rewrite utf16_string_app by exact W. f_equal. clear - F. unfold more_text.
  induction F as [|c more H F IH]; [reflexivity|]. cbn [flat_map]. destruct (fine_text _ _ H) as [-> W]. rewrite utf16_string_app by exact W. f_equal. exact IH.
Qed.
(** 8-bit text with a character above 127 is wrong: its bytes are passed on as if they were
    UTF-8. *)
Lemma latin1_longer : forall us, Forall (fun u => 0 <= u < 256) us -> zlen us <= zlen (utf16_string us) /\ (Exists (fun u => 128 <= u) us -> zlen us < zlen (utf16_string us)).
Proof.
  intros us F. induction F as [|u us H F IH]; [split; [(change (utf16_string []) with (@nil Z); lia)|intros E; inversion E]|].
  assert (S1 : utf16_string (u :: us) = utf8_enc u ++ utf16_string us).
  { unfold utf16_string. cbn [utf16_decode]. destruct (Z.leb_spec 55296 u); [lia|]. destruct (Z.leb_spec 56320 u); [lia|]. reflexivity. }
  rewrite S1, zlen_app, zlen_cons. assert (V : valid_rune u = true) by (unfold valid_rune; lia).
  assert (L : zlen (utf8_enc u) = if u <? 128 then 1 else 2).
  { unfold utf8_enc. rewrite V. destruct (Z.ltb_spec u 128); [reflexivity|]. destruct (Z.ltb_spec u 2048); [reflexivity|lia]. }
  rewrite L. destruct IH as [I1 I2]. destruct (Z.ltb_spec u 128).
  - split; [lia|]. intros E. apply Exists_cons in E. destruct E as [E|E]; [lia|]. specialize (I2 E). lia.
  - split; [lia|]. intros _. lia.
Qed.
Theorem C68_latin1_refuted : forall us, units_fit false us -> Exists (fun u => 128 <= u) us -> chunk_text false us <> utf16_string us.
Proof. intros us F E Q. cbn [chunk_text] in Q. destruct (latin1_longer us F) as [_ L]. specialize (L E). rewrite <- Q in L. lia. Qed.
(** A surrogate pair divided between two records comes out as two replacement characters. *)
Theorem C68_surrogate_refuted : forall h lo, 55296 <= h < 56320 -> 56320 <= lo < 57344 ->
  chunk_text true [h] ++ chunk_text true [lo] = [239; 191; 189; 239; 191; 189] /\ zlen (utf16_string [h; lo]) = 4.
Proof.
  intros h lo H L. cbn [chunk_text]. unfold utf16_string. cbn [utf16_decode]. destruct (Z.leb_spec 55296 h); [|lia]. destruct (Z.ltb_spec h 56320); [|lia]. destruct (Z.leb_spec 56320 lo); [|lia]. destruct (Z.ltb_spec lo 57344); [|lia].
  destruct (Z.leb_spec 55296 lo); [|lia]. destruct (Z.ltb_spec lo 56320); [lia|]. cbn [andb]. split; [reflexivity|].
  set (r := (h - 55296) * 1024 + (lo - 56320) + 65536). cbn [string_of_runes flat_map]. rewrite app_nil_r. assert (V : valid_rune r = true) by (unfold valid_rune, r; lia). unfold utf8_enc. rewrite V.
  destruct (Z.ltb_spec r 128); [unfold r in *; lia|]. destruct (Z.ltb_spec r 2048); [unfold r in *; lia|]. destruct (Z.ltb_spec r 65536); [unfold r in *; lia|]. reflexivity.
Qed.
(** A 16-bit text divided between records makes Get panic. *)
Lemma units_short : forall us n sp, Forall (fun u => 0 <= u < 65536) us -> (List.length us < n)%nat -> units_len n (mkSl (flat_map put16 us) sp) = Panic.
Proof.
  induction us as [|u us IH]; intros n sp F L; destruct n as [|n]; cbn [List.length] in L; try lia; [reflexivity|]. inversion F; subst. cbn [units_len flat_map dat]. rewrite le16_put16 by lia. cbn [bind].
  rewrite sl_from_app by reflexivity. cbn [bind]. rewrite IH by (auto; lia). reflexivity.
Qed.
Theorem C68_split_refuted : forall w ss l sh before row col xf a1 a2 a3 a4 a5 mids res us more tail after,
  reach_fx (wb_fx w) -> Forall w16 (wb_xfs w) -> idx (wb_streams w) ss = Ok l -> typed l (xs_recs sh) ->
  let bad := CFormula row col xf (FText a1 a2 a3 a4 a5 mids res true us more) tail in
  Forall (crec_ok 4294967296) (xs_pre sh ++ after) -> dims_ok (xs_dims sh) -> xs_cells sh = before ++ bad :: after -> Forall (crec_ok (zlen (wb_strings w))) (xs_pre sh ++ before) ->
  w16 row -> w16 col -> w16 xf -> Forall (fun r => skip_type (fst r)) mids -> units_fit true us -> flat_map snd more <> [] -> zlen us + zlen (flat_map snd more) < 65536 ->
  parse_sheet w ss = Panic.
Proof.
  intros w ss l sh before row col xf a1 a2 a3 a4 a5 mids res us more tail after HX HF HI T bad FA D EC FB W1 W2 W3 SM HD NM LN. apply Forall_app in FA. destruct FA as [FP FA].
  destruct (parse_prefix w ss l sh before bad after HX HF HI T FP D EC FB FA) as (s & r0 & c0 & ucap & lb & la & W & FX & CU & CL & HU & TB & NC & E).
  { intros lx rest s mr mc TX. apply scan_plain. apply (typed_types lx _ plain_type TX). cbn [bad crec_recs fval_recs]. constructor; [repeat split; discriminate|]. apply Forall_app. split; [eapply Forall_impl; [|exact SM]; cbn; intros; apply skip_plain; auto|]. constructor; [repeat split; discriminate|].
    apply Forall_forall. intros x Hx. apply in_map_iff in Hx. destruct Hx as (q & <- & _). apply cont_plain. }
  { do 3 eexists. split; [reflexivity|discriminate]. }
  rewrite E. clear E. unfold bad in TB. cbn [crec_recs fval_recs] in TB. start TB sz d l' Ed Es. apply typed_app in TB. destruct TB as (l1 & l2 & -> & T1 & TB). start TB sz2 d2 l3 Ed2 Es2.
  cbn [app]. rewrite step_rec by discriminate. unfold sheet_rec at 1. cbn [b_type b_data p_sheet p_row p_col p_ucap]. zdec.
  set (v0 := FNoText a1 a2 a3 a4 a5). rewrite (formula_ok w s d row col xf v0 tail Ed W1 W2 W3 I). cbn [fval_head v0 run_writes run_write].
  destruct (run_write_ok (wb_fx w) s row col (WPut (GStr []) (xf_format (wb_xfs w) xf)) HX W FX CU CL) as (s1 & R1 & _).
  { unfold w16 in *. apply good1; try lia; [apply good_xf; auto|apply good_str]. }
  cbn [run_write] in R1. rewrite R1. cbn [bind]. rewrite <- app_assoc. rewrite skip_recs by (eapply typed_types; eauto). cbn [app]. rewrite step_rec by discriminate.
  unfold sheet_rec. cbn [b_type b_data p_sheet p_row p_col p_ucap]. zdec. unfold string_head.
  pose proof (zlen_nonneg _ us). assert (1 <= zlen (flat_map snd more)) by (destruct (flat_map snd more) as [|x y]; [congruence|rewrite zlen_cons; pose proof (zlen_nonneg _ y); lia]).
  rewrite (field16_at d2 [] _ _ 0 Ed2) by (auto; unfold w16; lia). cbn [bind].
  rewrite (byte_at d2 (put16 (zlen us + zlen (flat_map snd more))) (2 * res + flag true) (enc_units true us) 2 Ed2 eq_refl). cbn [bind].
  rewrite (from_at d2 (put16 (zlen us + zlen (flat_map snd more)) ++ [2 * res + flag true]) (enc_units true us) 3); [|rewrite <- app_assoc; exact Ed2|reflexivity]. cbn [bind dat]. rewrite flag_even. cbn [negb enc_units].
  rewrite units_short; [reflexivity|exact HD|unfold zlen in *; lia].
Qed.

(** ** C55 *)
(** After Close the names can still be listed, but Get of any existing sheet panics. *)
Theorem C55_xls_refuted : forall w name, In name (map bs_name (wb_sheets w)) -> wb_get (wb_close w) name = Panic.
Proof.
  intros w name H. unfold wb_get. change (wb_sheets (wb_close w)) with (wb_sheets w). assert (N : wb_streams (wb_close w) = []) by reflexivity. revert N. generalize (wb_close w) as w'. intros w' N. induction (wb_sheets w) as [|s l IH]; [destruct H|]. cbn [get_loop]. destruct (str_eqb (bs_name s) name) eqn:E.
  - unfold parse_sheet. rewrite N, idx_out; [reflexivity|]. change (zlen (@nil (list brec))) with 0. lia.
  - destruct H as [H|H]; [subst; rewrite str_eqb_refl in E; discriminate|]. apply IH. exact H.
Qed.
Theorem C55_xls_rest : forall w, wb_close (wb_close w) = wb_close w /\ wb_list (wb_close w) = wb_list w /\ wb_list_hidden (wb_close w) = wb_list_hidden w /\
  (forall name, ~ In name (map bs_name (wb_sheets w)) -> wb_get (wb_close w) name = Err ESheetNotFound).
Proof.
  intros w. repeat split. intros name H. unfold wb_get. change (wb_sheets (wb_close w)) with (wb_sheets w). assert (N : wb_streams (wb_close w) = []) by reflexivity. revert N. generalize (wb_close w) as w'. intros w' N. induction (wb_sheets w) as [|s l IH]; [reflexivity|]. cbn [get_loop map In] in *.
  destruct (str_eqb (bs_name s) name) eqn:E; [apply str_eqb_eq in E; exfalso; apply H; left; exact E|]. apply IH. intros Q. apply H. right. exact Q.
Qed.

(** ** C32 *)
Lemma fx_add_1904 : forall x id code, fx_1904 (fst (fx_add x id code)) = fx_1904 x.
Proof.
  intros. Transparent fx_add. unfold fx_add. destruct (str_eqb _ _); [reflexivity|]. destruct (zfind id go_formatters); [reflexivity|]. destruct (zfind id (fx_codes x)); [reflexivity|]. destruct (make_formatter code); reflexivity. Opaque fx_add.
Qed.
Lemma bind_inv : forall A B (m : res A) (f : A -> res B) y, (x <- m ;; f x) = Ok y -> exists x, m = Ok x /\ f x = Ok y.
Proof. intros A B [| | |] f y H; try discriminate. eexists. split; [reflexivity|exact H]. Qed.
Lemma load_rec_1904 : forall w r rest w', load_rec w r rest = Ok w' -> fx_1904 (wb_fx w') = fx_1904 (wb_fx w).
Proof.
  intros w r rest w' E. unfold load_rec in E.
  repeat match type of E with (if ?b then _ else _) = _ => destruct b end;
  repeat (let x := fresh "x" in let E1 := fresh "E" in apply bind_inv in E; destruct E as (x & E1 & E)); repeat match type of E with (let '(_, _) := ?p in _) = _ => destruct p end;
  try (injection E as <-; cbn [wb_fx]; try reflexivity; apply fx_add_1904).
Qed.
Lemma load_recs_1904 : forall l w w', load_recs w l = Ok w' -> fx_1904 (wb_fx w') = fx_1904 (wb_fx w).
Proof.
  induction l as [|r l IH]; intros w w' E; cbn [load_recs] in E; [injection E as <-; reflexivity|]. apply bind_inv in E. destruct E as (w1 & E1 & E2). rewrite (IH _ _ E2). eapply load_rec_1904. exact E1.
Qed.
Lemma load_streams_1904 : forall ss w w', load_streams w ss = Ok w' -> fx_1904 (wb_fx w') = fx_1904 (wb_fx w).
Proof.
  induction ss as [|l ss IH]; intros w w' E; cbn [load_streams] in E; [injection E as <-; reflexivity|]. apply bind_inv in E. destruct E as (w1 & E1 & E2). rewrite (IH _ _ E2). eapply load_recs_1904. exact E1.
Qed.
(** Whatever the workbook declares, its dates are converted with the 1900 epoch. *)
Theorem C32_xls_refuted : forall raw sp2 w, load_workbook raw sp2 = Ok w -> fx_1904 (wb_fx w) = false.
Proof. intros raw sp2 w E. unfold load_workbook in E. apply bind_inv in E. destruct E as (st & _ & E). rewrite (load_streams_1904 _ _ _ E). reflexivity. Qed.

(** ** a workbook that meets the hypotheses *)
Definition ex_bof : bytes := put16 1536 ++ put16 16 ++ put16 8000 ++ put16 1997 ++ [0; 0; 0; 0; 6; 0; 0; 0].
Definition ex_link : hlink := mkHL (repeat 7 16) 2 (Some [72; 105]) None (Some (TUrl [104; 58; 47] None)) None [].
Definition ex_cells : list crec :=
  [ CSkip 520 [1; 2] [[3]];
    CNumber 0 0 1 4607182418800017408; CRk 0 1 0 30; CMulRk 1 0 [(0, 6); (1, 1072693249)] 1; CLabel 2 0 0 0; CBoolErr 2 1 0 1 0; CBoolErr 2 2 0 7 1;
    CFormula 3 0 1 (FNum 4607182418800017408) [9; 9]; CFormula 3 1 0 (FErr 42 0 0 0 0) [];
    CFormula 3 2 0 (FText 0 0 0 0 0 [(1212, [5])] 0 false [97; 98] [(0, true, [8364])]) [1];
    CEmbedded ex_bof [(4098, [1])] []; CLabel 4 0 0 2; CMerge [(4, 6, 0, 2)] []; CLink 7 7 0 1 ex_link ].
Definition ex_sheet : xsheet := mkXS ex_bof [CWsBool 0 4 []] (Some (0, 8, 0, 3, [0; 0])) ex_cells [].
Definition ex_globals (pos : Z) : list grec :=
  [ GCodePage 1200 []; GDate 1 []; GFormat 164 0 false (bs "0.000"); GXf 0 0 [1; 2]; GXf 0 164 [];
    GSheet 0 2 0 0 true [8364]; GSheet pos 0 0 0 false (bs "Data"); GSst 3 ex_items; GSkip 255 [8] [] ].
Definition ex_pos : Z := zlen (stream (globals_recs ex_bof (ex_globals 0) [])).
Definition ex_book : list (list frec) := [globals_recs ex_bof (ex_globals ex_pos) []; xs_recs ex_sheet].
Ltac dec := repeat match goal with
  | |- _ /\ _ => split
  | |- ~ _ => let H := fresh in intros H; vm_compute in H; intuition congruence
  | |- Forall _ (_ :: _) => constructor
  | |- Forall _ [] => constructor
  end.
Example ex_sheet_ok : xs_ok 3 ex_sheet.
Proof.
  unfold xs_ok, xs_all, ex_sheet, ex_cells. cbn [xs_pre xs_cells xs_dims app dims_ok]. split; [|vm_compute; intuition congruence].
  repeat constructor; unfold w16, w32, skip_type, units_fit, fits16 in *; cbn; dec; try lia; try (vm_compute; intuition congruence).
Qed.
Example ex_globals_ok : bof_ok ex_bof /\ Forall grec_ok (ex_globals ex_pos).
Proof.
  split.
  - exists 16, 8000, 1997, [0; 0; 0; 0; 6; 0; 0; 0]. split; [reflexivity|]. unfold w16. vm_compute. intuition congruence.
  - assert (P : 0 <= ex_pos < 4294967296) by (vm_compute; intuition congruence). revert P. generalize ex_pos. intros pos P. unfold ex_globals.
    repeat constructor; unfold w16, w32, units_fit, fits16 in *; cbn [grec_ok]; try exact (Forall_forall _ _); dec; try lia; try (vm_compute; intuition congruence); try exact ex_C48_ok.
Qed.
Example ex_C52 :
  Forall (Forall local_rec) (tl ex_book) /\ Forall group (tl ex_book) /\ Forall (Forall (rec_fits 65531)) ex_book /\
  nth_error ex_book 1 = Some (xs_recs ex_sheet) /\ ex_pos = offset ex_book 1 /\
  match load_workbook (mkSl (stream (concat ex_book) ++ [0; 0]) []) [] with
  | Ok w => wb_list w = [bs "Data"] /\ wb_list_hidden w = [[226; 130; 172]] /\ wb_xfs w = [0; 164] /\ zlen (wb_strings w) = 3
  | _ => False
  end.
Proof.
  split; [|split; [|split; [|split; [|split]]]].
  - unfold ex_book. cbn [tl]. constructor; [|constructor]. unfold local_rec.
    cbv [xs_recs ex_sheet ex_cells xs_bof xs_pre xs_dims xs_cells xs_eof flat_map app dims_recs crec_recs fval_recs map].
    repeat (apply Forall_cons; [split; [intros H; vm_compute in H; intuition congruence|intros H; try (right; apply ex_globals_ok); vm_compute in H; congruence]|]). apply Forall_nil.
  - constructor; [|constructor]. eexists _, _, _. split.
    + unfold xs_recs. rewrite app_assoc, app_assoc. reflexivity.
    + cbv [ex_sheet ex_cells xs_bof xs_pre xs_dims xs_cells xs_eof flat_map dims_recs crec_recs fval_recs map]. cbn [app].
      repeat (apply ne_rec; [intro H; vm_compute in H; congruence|intro H; vm_compute in H; congruence|]).
      apply (ne_group _ [(4098, [1])]); repeat (apply ne_rec; [intro H; vm_compute in H; congruence|intro H; vm_compute in H; congruence|]); apply ne_nil.
  - assert (P : forallb (forallb (fun r => (0 <=? fst r) && (fst r <? 65536) && (zlen (snd r) <=? 65531))) ex_book = true) by (vm_compute; reflexivity).
    apply Forall_forall. intros g Hg. apply Forall_forall. intros r Hr. apply forallb_forall with (x := g) in P; [|exact Hg]. apply forallb_forall with (x := r) in P; [|exact Hr].
    unfold rec_fits. lia.
  - reflexivity.
  - vm_compute. reflexivity.
  - vm_compute. repeat split; reflexivity.
Qed.
(** some of the writes of the sheet: text of a formula, marks of a merged region, its corner, a link *)
Example ex_C50 :
  let ws := xs_writes go_trim (book_strings (ex_globals ex_pos)) [0; 164] ex_sheet in
  last_write ws 3 2 = Some (WText (bs "ab" ++ [226; 130; 172]) 0) /\ last_write ws 2 2 = Some (WPut (GStr (bs "#DIV/0!")) 0) /\
  last_write ws 5 0 = Some (WPut (GStr continue_row_merged) 0) /\ last_write ws 6 2 = Some (WPut (GStr end_column_merged) 0) /\
  last_write ws 4 0 = Some (WPut (GStr (nth 2 (book_strings (ex_globals ex_pos)) [])) 0) /\
  last_write ws 7 0 = Some (WPut (GStr (bs "Hi <h:/>")) 0) /\ last_write ws 0 2 = None.
Proof. vm_compute. repeat split; reflexivity. Qed.
(** C53 and C68: sheets of that workbook (3 shared strings) with a label one past the end, and
    with a formula text that continues in a second record *)
Definition ex_brecs (sh : xsheet) : list brec := map (fun r => mkRec (fst r) (zlen (snd r)) (mkSl (snd r) [])) (xs_recs sh).
Definition ex_wb (sh : xsheet) : wbook := mkWB [] [bs "a"; bs "b"; bs "c"] 0 new_formatter [0; 164] [[]; ex_brecs sh] [].
Definition ex_bad (c : crec) : xsheet := mkXS ex_bof [] None [CLabel 0 0 0 2; c; CLabel 0 1 0 0] [].
Example ex_C53 : typed (ex_brecs (ex_bad (CLabel 1 1 0 3))) (xs_recs (ex_bad (CLabel 1 1 0 3))) /\ Forall (crec_ok 4294967296) (xs_all (ex_bad (CLabel 1 1 0 3))) /\ Forall (crec_ok 3) [CLabel 0 0 0 2] /\ parse_sheet (ex_wb (ex_bad (CLabel 1 1 0 2))) 1 <> Panic /\ parse_sheet (ex_wb (ex_bad (CLabel 1 1 0 3))) 1 = Panic /\ parse_sheet (ex_wb (ex_bad (CLabel 1 1 0 4))) 1 = Err ESstIndex.
Proof.
  split; [split; [reflexivity|repeat constructor]|]. split; [|split].
  1-2: repeat constructor; unfold w16, w32; lia.
  vm_compute. repeat split; congruence.
Qed.
Example ex_C68 :
  parse_sheet (ex_wb (ex_bad (CFormula 1 1 0 (FText 0 0 0 0 0 [] 0 true [8364; 97] [(0, true, [98])]) []))) 1 = Panic /\ parse_sheet (ex_wb (ex_bad (CFormula 1 1 0 (FText 0 0 0 0 0 [] 0 true [8364; 97; 98] []) []))) 1 <> Panic /\ chunk_text false [233] = [233] /\ utf16_string [233] = [195; 169].
Proof. vm_compute. repeat split; congruence. Qed.
Example ex_C55 : wb_get (ex_wb ex_sheet) (bs "x") = Err ESheetNotFound /\ match load_workbook (mkSl (stream (concat ex_book)) []) [] with
  | Ok w => wb_get (wb_close w) (bs "Data") = Panic /\ wb_date w = 1 /\ fx_1904 (wb_fx w) = false
  | _ => False
  end.
Proof. vm_compute. repeat split; reflexivity. Qed.

Print Assumptions C50_cells.
Print Assumptions C52_workbook.
Print Assumptions C52_partition.
Print Assumptions C52_position_refuted.
Print Assumptions C51_marks.
Print Assumptions C51_xls.
Print Assumptions C53_label.
Print Assumptions C53_boundary_refuted.
Print Assumptions C68_text.
Print Assumptions C68_latin1_refuted.
Print Assumptions C68_surrogate_refuted.
Print Assumptions C68_split_refuted.
Print Assumptions C55_xls_refuted.
Print Assumptions C55_xls_rest.
Print Assumptions C32_xls_refuted.

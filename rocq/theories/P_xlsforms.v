(** * C91: forms that MS-XLS allows for cells and sheets of an XLS workbook. *)
From Verif Require Import GoBase L_base GoFloat GoUnicode M_grate M_value M_formats M_sheet M_hlink M_biff M_xls M_open M_tsv M_cmd S_sheet S_grid S_biff S_xlstr S_hlink S_xls L_biff L_formats L_grid L_xls L_xlsbook P_biff P_xls.

(** what the sheet shows at a position *)
Definition cell_at (s : M_sheet.sheet) (r c : Z) (P : list goval -> Prop) : Prop :=
  exists grid, delivers raw s grid /\ forall row cl, nth_error grid (Z.to_nat r) = Some row -> nth_error row (Z.to_nat c) = Some cl -> P cl.
Lemma displays_at : forall x ws rows cols s r c, displays x ws rows cols s -> 0 <= r -> 0 <= c ->
  cell_at s r c (fun cl => match last_write ws r c with Some w => wrote x w cl | None => cl = [] end).
Proof. intros x ws rows cols s r c (_ & _ & grid & D & V & _) Hr Hc. exists grid. split; [exact D|]. intros row cl N1 N2. specialize (V _ _ _ _ N1 N2). rewrite !Z2Nat.id in V by lia. exact V. Qed.

(** ** Label and RString records: cells with a text of their own *)
Definition LABEL : Z := 516.
Definition RSTRING : Z := 214.
Definition label_rec (ty row col xf : Z) (text : bytes) : crec := CSkip ty (coords row col xf ++ text) [].
(** The texts are not shown: the sheet is that without the record, and where no other record
    addresses the position it stays blank. *)
Theorem C91_label_refuted : forall w ss l sh ty pre row col xf text post, ty = LABEL \/ ty = RSTRING ->
  reach_fx (wb_fx w) -> Forall w16 (wb_xfs w) -> idx (wb_streams w) ss = Ok l -> typed l (xs_recs sh) -> xs_ok (zlen (wb_strings w)) sh ->
  xs_all sh = pre ++ label_rec ty row col xf text :: post -> 0 <= row -> 0 <= col ->
  let ws := flat_map (crec_writes go_trim (wb_strings w) (wb_xfs w) (xs_rows sh) (xs_cols sh)) (pre ++ post) in
  exists s, parse_sheet w ss = Ok (Some s) /\ displays (wb_fx w) ws (xs_rows sh) (xs_cols sh) s /\
    (last_write ws row col = None -> cell_at s row col (fun cl => cl = [])).
Proof.
  intros w ss l sh ty pre row col xf text post TY HX HF HI T OK E Hr Hc ws. destruct (C50_cells w ss l sh HX HF HI T OK) as (s & P & D).
  assert (W : xs_writes go_trim (wb_strings w) (wb_xfs w) sh = ws) by (unfold xs_writes, ws; rewrite E, !flat_map_app; reflexivity).
  rewrite W in D. exists s. split; [exact P|]. split; [exact D|]. intros L. pose proof (displays_at _ _ _ _ _ row col D Hr Hc) as A. rewrite L in A. exact A.
Qed.
(** both kinds are records that the other theorems (C50, C52, C74) allow anywhere *)
Theorem C91_label_allowed : forall nstr ty row col xf text, ty = LABEL \/ ty = RSTRING -> crec_ok nstr (label_rec ty row col xf text).
Proof. intros nstr ty row col xf text [->| ->]; cbn [label_rec crec_ok]; (split; [|discriminate]); (split; [unfold LABEL, RSTRING; lia|]); split; cbn; intuition discriminate. Qed.

(** ** links *)
(** A link without display text of its own replaces the text of the cell it is on by the target in
    angle brackets, whatever the cell held. *)
Theorem C91_link_refuted : forall w ss l sh pre r c h post, reach_fx (wb_fx w) -> Forall w16 (wb_xfs w) -> idx (wb_streams w) ss = Ok l -> typed l (xs_recs sh) -> xs_ok (zlen (wb_strings w)) sh ->
  xs_all sh = pre ++ CLink r r c c h :: post -> 0 <= r < xs_rows sh -> 0 <= c < xs_cols sh -> r <> 65535 -> c <> 255 -> hl_disp h = None ->
  last_write (flat_map (crec_writes go_trim (wb_strings w) (wb_xfs w) (xs_rows sh) (xs_cols sh)) post) r c = None ->
  exists s, parse_sheet w ss = Ok (Some s) /\ cell_at s r c (wrote (wb_fx w) (WPut (GStr (bs " <" ++ go_trim (link_text h) ++ bs ">")) 0)).
Proof.
  intros w ss l sh pre r c h post HX HF HI T OK E Hr Hc N1 N2 ND L. destruct (C50_cells w ss l sh HX HF HI T OK) as (s & P & D). exists s. split; [exact P|].
  pose proof (displays_at _ _ _ _ _ r c D ltac:(lia) ltac:(lia)) as A.
  assert (W : last_write (xs_writes go_trim (wb_strings w) (wb_xfs w) sh) r c = Some (WPut (GStr (bs " <" ++ go_trim (link_text h) ++ bs ">")) 0)).
  { unfold xs_writes. rewrite E, flat_map_app. cbn [flat_map]. rewrite !last_write_app, L. cbn [crec_writes].
    destruct (Z.leb_spec c (xs_cols sh)); [|lia]. destruct (Z.leb_spec r (xs_rows sh)); [|lia]. cbn [andb clip].
    destruct (Z.eqb_spec r 65535); [lia|]. destruct (Z.eqb_spec c 255); [lia|].
    assert (Z1 : forall a, zrange a a = [a]) by (intros a; unfold zrange; replace (a - a + 1) with 1 by lia; change (Z.to_nat 1) with 1%nat; cbn [seq map]; f_equal; lia).
    cbn [region_cells]. rewrite !Z1. cbn [flat_map map app]. rewrite !Z.eqb_refl. cbn [andb map app last_write]. rewrite !Z.eqb_refl. cbn [andb]. rewrite ND. reflexivity. }
  rewrite W in A. exact A.
Qed.

(** ** WsBool: flags of the sheet (MS-XLS 2.4.351) *)
Definition dialog_flag (v : Z) : bool := Z.testbit v 4.    (* fDialog *)
Definition sync_flag (v : Z) : bool := Z.testbit v 12.     (* fSyncHoriz *)
Definition ws_flags (v : Z) (tail : bytes) : crec := CWsBool (v mod 256) (v / 256) tail.
Lemma sync_bit : forall v, w16 v -> negb (Z.land (v / 256) 16 =? 0) = sync_flag v.
Proof.
  intros v H. unfold sync_flag. change 256 with (2 ^ 8). rewrite <- Z.shiftr_div_pow2 by lia.
  assert (E : Z.land (Z.shiftr v 8) 16 = if Z.testbit v 12 then 16 else 0).
  { apply Z.bits_inj'. intros n Hn. rewrite Z.land_spec, Z.shiftr_spec by lia. change 16 with (2 ^ 4). rewrite Z.pow2_bits_eqb by lia. destruct (Z.eqb_spec 4 n) as [<-|N].
    - rewrite andb_true_r. change (4 + 8) with 12. destruct (Z.testbit v 12) eqn:B; [reflexivity|]. rewrite Z.bits_0. reflexivity.
    - rewrite andb_false_r. destruct (Z.testbit v 12); [|rewrite Z.bits_0; reflexivity]. rewrite Z.pow2_bits_eqb by lia. destruct (Z.eqb_spec 4 n); [lia|reflexivity]. }
  rewrite E. destruct (Z.testbit v 12); reflexivity.
Qed.
(** A dialog sheet is read as a worksheet (unless it has the other flag). *)
Theorem C91_dialog_refuted : forall w ss l sh pre v tail post, reach_fx (wb_fx w) -> Forall w16 (wb_xfs w) -> idx (wb_streams w) ss = Ok l -> typed l (xs_recs sh) ->
  xs_all sh = pre ++ ws_flags v tail :: post -> w16 v -> dialog_flag v = true -> sync_flag v = false ->
  Forall (crec_ok (zlen (wb_strings w))) (pre ++ post) -> dims_ok (xs_dims sh) ->
  exists s, parse_sheet w ss = Ok (Some s) /\ displays (wb_fx w) (xs_writes go_trim (wb_strings w) (wb_xfs w) sh) (xs_rows sh) (xs_cols sh) s.
Proof.
  intros w ss l sh pre v tail post HX HF HI T E Hv _ NS F D. apply (C50_cells w ss l sh HX HF HI T). split; [|exact D]. rewrite E. apply Forall_app in F. destruct F as [F1 F2]. apply Forall_app. split; [exact F1|]. constructor; [|exact F2].
  cbn [ws_flags crec_ok]. pose proof (sync_bit v Hv) as B. rewrite NS in B. apply negb_false_iff, Z.eqb_eq in B. exact B.
Qed.
(** A worksheet with synchronized horizontal scrolling is not read: Get gives neither a sheet nor
    an error, whatever follows. *)
Theorem C91_sync_refuted : forall w ss l bof nstr pre v tail rest, idx (wb_streams w) ss = Ok l -> Forall (crec_ok nstr) pre -> w16 v -> sync_flag v = true ->
  typed l ((BOF, bof) :: flat_map crec_recs pre ++ crec_recs (ws_flags v tail) ++ rest) -> parse_sheet w ss = Ok None.
Proof.
  intros w ss l bof nstr pre v tail rest HI F Hv S T. start T sz d l0 Ed Es. apply typed_app in T. destruct T as (la & l1 & -> & TA & T). cbn [ws_flags crec_recs app] in T. start T sz1 d1 l2 Ed1 Es1.
  unfold parse_sheet. rewrite HI. cbn [bind scan_dims b_type]. change (0 <? 0) with false. change (BOF =? RecTypeBOF) with true. cbv iota. rewrite (scan_crecs pre nstr) by auto.
  cbn [scan_dims b_type b_data]. change (0 <? 0) with false. change (129 =? RecTypeBOF) with false. change (129 =? RecTypeWsBool) with true. cbv iota. rewrite (byte_at d1 [v mod 256] (v / 256) tail 1 Ed1) by reflexivity. cbn [bind]. rewrite (sync_bit v Hv), S. reflexivity.
Qed.
(** The commands stop with a panic at such a sheet. *)
Theorem C91_sync_panics_refuted : forall w a e b k l bof nstr pre v tail rest, wb_sheets w = a ++ e :: b -> ~ In (bs_name e) (map bs_name a) -> zfind (bs_pos e) (wb_map w) = Some k ->
  idx (wb_streams w) k = Ok l -> Forall (crec_ok nstr) pre -> w16 v -> sync_flag v = true ->
  typed l ((BOF, bof) :: flat_map crec_recs pre ++ crec_recs (ws_flags v tail) ++ rest) -> M_xls.wb_get w (bs_name e) = Ok None /\ snd (src_get (SrcXls w) (bs_name e)) = Panic.
Proof.
  intros w a e b k l bof nstr pre v tail rest ES NI ZF HI F Hv S T.
  assert (G : M_xls.wb_get w (bs_name e) = Ok None).
  { unfold M_xls.wb_get. rewrite ES. clear ES. induction a as [|e0 a IH]; cbn [app get_loop].
    - rewrite str_eqb_refl, ZF. eapply C91_sync_refuted; eauto.
    - cbn [map In] in NI. destruct (str_eqb (bs_name e0) (bs_name e)) eqn:Q; [apply str_eqb_eq in Q; tauto|]. apply IH. tauto. }
  split; [exact G|]. cbn [src_get snd]. rewrite G. reflexivity.
Qed.

(** ** substreams in substreams *)
Lemma embedded_open : forall w mr mc l rest st n, Forall (fun r => b_type r <> EOFR) l -> 0 < n ->
  sheet_recs w mr mc (l ++ rest) false n st = sheet_recs w mr mc rest false n st.
Proof.
  intros w mr mc l rest st n F Hn. induction F as [|r l H F IH]; [reflexivity|]. cbn [app sheet_recs]. destruct (Z.ltb_spec 0 n); [|lia]. destruct (Z.eqb_spec (b_type r) RecTypeEOF) as [Q|_]; [destruct (H Q)|]. exact IH.
Qed.
Lemma scan_open : forall l rest s mr mc n, Forall (fun r => b_type r <> EOFR) l -> 0 < n -> scan_dims (l ++ rest) false n s mr mc = scan_dims rest false n s mr mc.
Proof.
  intros l rest s mr mc n F Hn. induction F as [|r l H F IH]; [reflexivity|]. cbn [app scan_dims]. destruct (Z.ltb_spec 0 n); [|lia]. destruct (Z.eqb_spec (b_type r) RecTypeEOF) as [Q|_]; [destruct (H Q)|]. exact IH.
Qed.
(** an embedded substream that itself embeds one, followed by the records inner *)
Definition nested_recs (p : bytes) (body1 : list frec) (p2 : bytes) (body2 : list frec) (q : bytes) (inner : list crec) (q2 : bytes) : list frec :=
  (BOF, p) :: body1 ++ (BOF, p2) :: body2 ++ (EOFR, q) :: flat_map crec_recs inner ++ [(EOFR, q2)].
(** a sheet whose cell records are around other records *)
Lemma parse_around : forall w ss sh sz d la ld lc eofr, reach_fx (wb_fx w) -> Forall w16 (wb_xfs w) -> xs_ok (zlen (wb_strings w)) sh ->
  idx (wb_streams w) ss = Ok (mkRec BOF sz d :: la ++ ld ++ lc ++ [eofr]) -> typed la (flat_map crec_recs (xs_pre sh)) -> typed ld (dims_recs (xs_dims sh)) ->
  (forall s mr mc, scan_dims (lc ++ [eofr]) false 0 s mr mc = Ok (Some (s, mr, mc))) -> no_cont (lc ++ [eofr]) ->
  (forall s row col ucap, 8224 <= ucap -> exists row2 col2 ucap2, sheet_recs w (xs_rows sh) (xs_cols sh) (lc ++ [eofr]) false 0 (mkPst s row col ucap) =
     (s <- run_writes s (flat_map (crec_writes go_trim (wb_strings w) (wb_xfs w) (xs_rows sh) (xs_cols sh)) (xs_cells sh)) ;; Ok (mkPst s row2 col2 ucap2))) ->
  exists s, parse_sheet w ss = Ok (Some s) /\ displays (wb_fx w) (xs_writes go_trim (wb_strings w) (wb_xfs w) sh) (xs_rows sh) (xs_cols sh) s.
Proof.
  intros w ss sh sz d la ld lc eofr HX HF [F D] HI TA TD SR NE HR. unfold xs_all in F. apply Forall_app in F. destruct F as [FA FC].
  set (mr := xs_rows sh) in *. set (mc := xs_cols sh) in *.
  set (s0 := match xs_dims sh with None => empty_sheet (wb_fx w) | Some _ => resize (empty_sheet (wb_fx w)) mr mc end).
  unfold parse_sheet. rewrite HI. cbn [bind].
  assert (SD : scan_dims ({| b_type := BOF; b_size := sz; b_data := d |} :: la ++ ld ++ lc ++ [eofr]) true 0 (empty_sheet (wb_fx w)) 0 0 = Ok (Some (s0, mr, mc))).
  { cbn [scan_dims b_type]. change (0 <? 0) with false. zdec. rewrite (scan_crecs (xs_pre sh) (zlen (wb_strings w))) by auto.
    clear HR. unfold s0, mr, mc, xs_rows, xs_cols in *. destruct (xs_dims sh) as [[[[[r0 mr'] c0] mc'] tl]|]; cbn [dims_recs dims_ok] in *.
    - destruct D as (W1 & W2 & W3 & W4). start TD szd dd ld' Edd Esd. apply typed_nil in TD. subst ld'. cbn [app scan_dims b_type b_data]. change (0 <? 0) with false. zdec.
      rewrite (field32_at dd [] r0 _ 0 Edd) by auto. rewrite (field32_at dd (put32 r0) mr' _ 4 Edd) by auto. cbn [bind].
      erewrite (field16_at dd (put32 r0 ++ put32 mr') c0); [|rewrite <- app_assoc; exact Edd|reflexivity|auto]. cbn [bind].
      rewrite (field16_at dd (put32 r0 ++ put32 mr' ++ put16 c0) mc' tl 10); [|rewrite <- !app_assoc; exact Edd|reflexivity|auto]. cbn [bind]. apply SR.
    - apply typed_nil in TD. subst ld. cbn [app]. apply SR. }
  rewrite SD. cbn [bind]. cbn [sheet_recs b_type]. change (0 <? 0) with false. change (BOF =? RecTypeBOF) with true. cbv iota.
  assert (ND : no_cont (ld ++ lc ++ [eofr])).
  { destruct (xs_dims sh) as [[[[[r0 mr'] c0] mc'] tl]|]; cbn [dims_recs] in TD; [start TD szd dd ld' Edd Esd; discriminate|]. apply typed_nil in TD. subst ld. exact NE. }
  destruct (crecs_steps w mr mc (xs_pre sh) la (ld ++ lc ++ [eofr]) (mkPst s0 0 0 8224) FA TA ND) as (row & col & ucap & HU & E); [cbn; lia|]. rewrite E. cbn [p_sheet].
  assert (DS : forall st, sheet_recs w mr mc (ld ++ lc ++ [eofr]) false 0 st = sheet_recs w mr mc (lc ++ [eofr]) false 0 st).
  { intros st. destruct (xs_dims sh) as [[[[[r0 mr'] c0] mc'] tl]|]; cbn [dims_recs] in TD; [|apply typed_nil in TD; subst ld; reflexivity]. start TD szd dd ld' Edd Esd. apply typed_nil in TD. subst ld'. reflexivity. }
  assert (GW : Forall good_write (xs_writes go_trim (wb_strings w) (wb_xfs w) sh)) by (apply good_crecs; [auto|unfold xs_all; apply Forall_app; auto]).
  assert (RW : exists s, run_writes s0 (xs_writes go_trim (wb_strings w) (wb_xfs w) sh) = Ok s /\ displays (wb_fx w) (xs_writes go_trim (wb_strings w) (wb_xfs w) sh) mr mc s).
  { unfold s0, mr, mc, xs_rows, xs_cols in *. destruct (xs_dims sh) as [[[[[r0 mr'] c0] mc'] tl]|]; cbn [dims_ok] in D; [apply writes_display; auto; unfold w32, w16 in D; lia|apply writes_display0; auto]. }
  destruct RW as (s & RW & DI). unfold xs_writes, xs_all in RW. rewrite flat_map_app, run_writes_app in RW. fold mr mc in RW.
  destruct (run_writes s0 _) as [s1|er| |]; cbn [bind] in *; try discriminate. rewrite DS.
  destruct (HR s1 row col ucap HU) as (row2 & col2 & ucap2 & E2). rewrite E2, RW. cbn [bind].
  exists s. split; [reflexivity|exact DI].
Qed.
(** What the outer embedded substream holds after the inner one is shown as cells of the sheet. *)
Theorem C91_nested_refuted : forall w ss l sh before p body1 p2 body2 q inner q2 after,
  reach_fx (wb_fx w) -> Forall w16 (wb_xfs w) -> idx (wb_streams w) ss = Ok l -> xs_ok (zlen (wb_strings w)) sh ->
  xs_cells sh = before ++ inner ++ after ->
  Forall (fun r => fst r <> BOF /\ fst r <> EOFR) body1 -> Forall (fun r => fst r <> BOF /\ fst r <> EOFR) body2 ->
  typed l ((BOF, xs_bof sh) :: flat_map crec_recs (xs_pre sh) ++ dims_recs (xs_dims sh) ++ flat_map crec_recs before ++ nested_recs p body1 p2 body2 q inner q2 ++ flat_map crec_recs after ++ [(EOFR, xs_eof sh)]) ->
  exists s, parse_sheet w ss = Ok (Some s) /\ displays (wb_fx w) (xs_writes go_trim (wb_strings w) (wb_xfs w) sh) (xs_rows sh) (xs_cols sh) s.
Proof.
  intros w ss l sh before p body1 p2 body2 q inner q2 after HX HF HI OK EC F1 F2 T. start T sz d l0 Ed Es. apply typed_app in T. destruct T as (la & l1 & -> & TA & T). apply typed_app in T. destruct T as (ld & l2 & -> & TD & T).
  apply typed_app in T. destruct T as (lb & l3 & -> & TB & T). apply typed_app in T. destruct T as (ln & l4 & -> & TN & T). apply typed_app in T. destruct T as (lz & l5 & -> & TZ & TE). start TE sz3 d3 l6 Ed3 Es3. apply typed_nil in TE. subst l6.
  set (eofr := {| b_type := EOFR; b_size := sz3; b_data := d3 |}) in *.
  unfold nested_recs in TN. start TN sz4 d4 l7 Ed4 Es4. apply typed_app in TN. destruct TN as (n1 & l8 & -> & T1 & TN). start TN sz5 d5 l9 Ed5 Es5. apply typed_app in TN. destruct TN as (n2 & l10 & -> & T2 & TN). start TN sz6 d6 l11 Ed6 Es6. apply typed_app in TN. destruct TN as (li & l12 & -> & TI & TN). start TN sz7 d7 l13 Ed7 Es7. apply typed_nil in TN. subst l13.
  set (b1 := {| b_type := BOF; b_size := sz4; b_data := d4 |}) in *. set (b2 := {| b_type := BOF; b_size := sz5; b_data := d5 |}) in *. set (e1 := {| b_type := EOFR; b_size := sz6; b_data := d6 |}) in *. set (e2 := {| b_type := EOFR; b_size := sz7; b_data := d7 |}) in *.
  assert (O : Forall (fun r => b_type r <> EOFR) (n1 ++ b2 :: n2)).
  { apply Forall_app. split; [apply (typed_types n1 body1 (fun t => t <> EOFR) T1); eapply Forall_impl; [|exact F1]; cbn; tauto|]. constructor; [discriminate|]. apply (typed_types n2 body2 (fun t => t <> EOFR) T2). eapply Forall_impl; [|exact F2]; cbn; tauto. }
  pose proof OK as [F D]. unfold xs_all in F. apply Forall_app in F. destruct F as [FA FC]. rewrite EC in FC. apply Forall_app in FC. destruct FC as [FB FC]. apply Forall_app in FC. destruct FC as [FI FZ].
  set (mid := b1 :: (n1 ++ b2 :: n2) ++ [e1]). set (lc := lb ++ mid ++ li ++ [e2] ++ lz).
  assert (EL : lb ++ (b1 :: n1 ++ b2 :: n2 ++ e1 :: li ++ [e2]) ++ lz ++ [eofr] = lc ++ [eofr]).
  { unfold lc, mid. rewrite <- !app_assoc. cbn [app]. rewrite <- !app_assoc. cbn [app]. rewrite <- !app_assoc. cbn [app]. rewrite <- !app_assoc. reflexivity. }
  rewrite EL in HI.
  assert (MS : forall rest mr mc st, sheet_recs w mr mc (mid ++ rest) false 0 st = sheet_recs w mr mc rest false 0 st).
  { intros rest mr mc st. unfold mid. cbn [app sheet_recs b1 b_type]. change (0 <? 0) with false. change (BOF =? RecTypeBOF) with true. cbv iota. rewrite <- app_assoc, embedded_open by (auto; lia). reflexivity. }
  assert (MD : forall rest s mr mc, scan_dims (mid ++ rest) false 0 s mr mc = scan_dims rest false 0 s mr mc).
  { intros rest s mr mc. unfold mid. cbn [app scan_dims b1 b_type]. change (0 <? 0) with false. change (BOF =? RecTypeBOF) with true. cbv iota. rewrite <- app_assoc, scan_open by (auto; lia). reflexivity. }
  assert (ES2 : forall rest mr mc st, sheet_recs w mr mc ([e2] ++ rest) false 0 st = sheet_recs w mr mc rest false 0 st) by reflexivity.
  assert (ED2 : forall rest s mr mc, scan_dims ([e2] ++ rest) false 0 s mr mc = scan_dims rest false 0 s mr mc) by reflexivity.
  assert (NZ : no_cont (lz ++ [eofr])) by (apply (no_cont_crecs after (zlen (wb_strings w))); auto; discriminate).
  assert (NE : no_cont [eofr]) by discriminate.
  assert (NI : no_cont ([e2] ++ lz ++ [eofr])) by discriminate.
  assert (NM : no_cont (mid ++ li ++ [e2] ++ lz ++ [eofr])) by discriminate.
  assert (AL : lc ++ [eofr] = lb ++ mid ++ li ++ [e2] ++ lz ++ [eofr]) by (unfold lc; rewrite <- !app_assoc; reflexivity).
  apply (parse_around w ss sh sz d la ld lc eofr HX HF OK HI TA TD).
  - intros s mr mc. rewrite AL, (scan_crecs before (zlen (wb_strings w))), MD, (scan_crecs inner (zlen (wb_strings w))), ED2, (scan_crecs after (zlen (wb_strings w))) by auto. reflexivity.
  - rewrite AL. apply (no_cont_crecs before (zlen (wb_strings w))); auto.
  - intros s row col ucap HU. rewrite AL, EC, !flat_map_app.
    set (mr := xs_rows sh). set (mc := xs_cols sh).
    destruct (crecs_steps w mr mc before lb _ (mkPst s row col ucap) FB TB NM HU) as (row1 & col1 & ucap1 & HU1 & E1). rewrite E1. cbn [p_sheet]. rewrite run_writes_app.
    destruct (run_writes s _) as [s1|er| |]; cbn [bind]; try (exists 0, 0, 0; reflexivity). rewrite MS.
    destruct (crecs_steps w mr mc inner li _ (mkPst s1 row1 col1 ucap1) FI TI NI HU1) as (row2 & col2 & ucap2 & HU2 & E2). rewrite E2. cbn [p_sheet]. rewrite run_writes_app.
    destruct (run_writes s1 _) as [s2|er| |]; cbn [bind]; try (exists 0, 0, 0; reflexivity). rewrite ES2.
    destruct (crecs_steps w mr mc after lz [eofr] (mkPst s2 row2 col2 ucap2) FZ TZ NE HU2) as (row3 & col3 & ucap3 & HU3 & E3). exists row3, col3, ucap3. exact E3.
Qed.

(** ** chart sheets *)
(** A chart sheet (type 2) is listed like a worksheet, and Get shows the numbers that the chart
    keeps of its series (Number and BoolErr records after SIIndex records) as cells. *)
Theorem C91_chart_refuted : forall p G q rest tail sp sp2 a pos name b n sh, bof_ok p -> Forall grec_ok G -> Forall (Forall local_rec) rest -> Forall group rest ->
  let gs := globals_recs p G q :: rest in
  Forall (Forall (rec_fits 65531)) gs -> zlen tail < 4 -> g_sheets G = a ++ (pos, 0, 2, name) :: b -> ~ In name (map sheet_name a) ->
  pos = offset gs n -> nth_error gs n = Some (xs_recs sh) -> xs_ok (zlen (book_strings G)) sh ->
  exists w s, load_workbook (mkSl (stream (concat gs) ++ tail) sp) sp2 = Ok w /\ In name (M_xls.wb_list w) /\ M_xls.wb_get w name = Ok (Some s) /\
    displays (book_formats G) (xs_writes go_trim (book_strings G) (g_xfs G) sh) (xs_rows sh) (xs_cols sh) s.
Proof.
  intros p G q rest tail sp sp2 a pos name b n sh B FG FL GR gs FF HT ES NI HP HN OK. destruct (C52_workbook p G q rest tail sp sp2 B FG FL GR FF HT) as (w & L & LS & _ & GT & _).
  destruct (GT a pos 0 2 name b n sh ES NI HP HN OK) as (s & E & D). exists w, s. split; [exact L|]. split; [|auto].
  rewrite LS, ES, filter_app, map_app, in_app_iff. right. cbn [filter shown]. change (0 mod 4 =? 0) with true. cbv iota. left. reflexivity.
Qed.

(** ** examples *)
Definition ex_rec (r : frec) : brec := mkRec (fst r) (zlen (snd r)) (mkSl (snd r) []).
Definition ex_book (l : list frec) : wbook := mkWB [mkBS 0 0 0 (bs "A")] [bs "text"] 0 new_formatter [0] [map ex_rec l] [(0, 0)].
Definition ex_bof : frec := (BOF, put16 1536 ++ put16 16 ++ put16 1 ++ put16 1997 ++ repeat 0 8).
Definition ex_dims : option (Z * Z * Z * Z * bytes) := Some (0, 1, 0, 2, [0; 0]).
Definition shows (r : res (option M_sheet.sheet)) : option (list (list goval)) :=
  match r with Ok (Some s) => match M_sheet.next s with (true, s) => match raw s with Ok l => Some l | _ => None end | _ => Some [] end | _ => None end.
(** a Label in A1, a shared string in B1: only the latter is shown *)
Definition ex_label : xsheet := mkXS (snd ex_bof) [] ex_dims [label_rec LABEL 0 0 0 (put16 2 ++ [0] ++ bs "hi"); CLabel 0 1 0 0] [].
Example ex_C91_label : xs_ok 1 ex_label /\ typed (map ex_rec (xs_recs ex_label)) (xs_recs ex_label) /\
  shows (parse_sheet (ex_book (xs_recs ex_label)) 0) = Some [[]; [GStr (bs "text"); GCType StringCell]].
Proof.
  split; [split; [|cbn; unfold w32, w16; lia]|split; [split; [reflexivity|repeat (apply Forall_cons; [reflexivity|]); apply Forall_nil]|vm_compute; reflexivity]].
  constructor; [apply C91_label_allowed; auto|]. constructor; [cbn; unfold w16, w32; lia|constructor].
Qed.
(** flags 4096: the sheet is not read; flags 16: it is *)
Definition ex_flags (v : Z) : xsheet := mkXS (snd ex_bof) [ws_flags v []] ex_dims [CLabel 0 1 0 0] [].
Example ex_C91_flags : sync_flag 4096 = true /\ dialog_flag 4096 = false /\ parse_sheet (ex_book (xs_recs (ex_flags 4096))) 0 = Ok None /\
  sync_flag 16 = false /\ dialog_flag 16 = true /\ shows (parse_sheet (ex_book (xs_recs (ex_flags 16))) 0) = Some [[]; [GStr (bs "text"); GCType StringCell]].
Proof. repeat split; vm_compute; reflexivity. Qed.
Example ex_C91_panics : snd (src_get (SrcXls (ex_book (xs_recs (ex_flags 4096)))) (bs "A")) = Panic.
Proof.
  apply (C91_sync_panics_refuted (ex_book (xs_recs (ex_flags 4096))) [] (mkBS 0 0 0 (bs "A")) [] 0 (map ex_rec (xs_recs (ex_flags 4096))) (snd ex_bof) 1 [] 4096 [] (dims_recs ex_dims ++ crec_recs (CLabel 0 1 0 0) ++ [(EOFR, [])])); try reflexivity; [intros []|constructor|unfold w16; lia|].
  split; [reflexivity|]. repeat (apply Forall_cons; [reflexivity|]); apply Forall_nil.
Qed.
(** the record of a chart after a substream of its own is shown in A1 *)
Definition ex_inner : xsheet := mkXS (snd ex_bof) [] ex_dims [CRk 0 0 0 22; CLabel 0 1 0 0] [].
Definition ex_nested : list frec :=
  ex_bof :: dims_recs ex_dims ++ nested_recs (snd ex_bof) [] (snd ex_bof) [] [] [CRk 0 0 0 22] [] ++ crec_recs (CLabel 0 1 0 0) ++ [(EOFR, [])].
Example ex_C91_nested : shows (parse_sheet (ex_book ex_nested) 0) = Some [[GInt KInt64 5; GCType IntegerCell]; [GStr (bs "text"); GCType StringCell]].
Proof. vm_compute. reflexivity. Qed.

Print Assumptions C91_label_refuted.
Print Assumptions C91_label_allowed.
Print Assumptions C91_link_refuted.
Print Assumptions C91_dialog_refuted.
Print Assumptions C91_sync_refuted.
Print Assumptions C91_sync_panics_refuted.
Print Assumptions C91_nested_refuted.
Print Assumptions C91_chart_refuted.

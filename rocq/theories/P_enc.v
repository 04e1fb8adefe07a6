(** * P_enc: property C88, an encrypted XLS workbook (default password) from the encrypted bytes to
    the sheets it shows. *)
From Verif Require Import GoBase L_base GoFloat L_float GoUnicode GoTime M_grate L_grate M_value M_dates M_fmt M_formats M_cell M_sheet S_cell L_cell S_sheet L_sheet
  S_grid L_grid S_crypto M_crypto P_crypto M_biff S_biff L_biff P_biff M_xlstr S_xlstr L_xlstr M_hlink S_hlink L_hlink M_xls S_xls P_xlstr P_hlink L_xls L_xlsbook P_xls
  S_grate P_grate M_simple M_cfb S_cfb M_xlsx M_open S_open P_open.
From Coq Require Import Lia ZifyBool ZifyNat Permutation.
Local Opaque f_of_bits fdiv f_of_Z put set_value fx_add.

(** ** statement *)
(** the globals of an encrypted workbook: a FilePass record somewhere among the others *)
Definition sealed_globals (p : bytes) (G1 : list grec) (fp : bytes) (G2 : list grec) (q : bytes) : list frec :=
  (BOF, p) :: flat_map grec_recs G1 ++ (FILEPASS, fp) :: flat_map grec_recs G2 ++ [(EOFR, q)].
(** RC4 encryption with a salt and an encrypted verifier *)
Definition rc4_filepass (salt verifier : bytes) : bytes := put16 1 ++ rc4_header default_password salt verifier.
(** the workbook b lists the sheets that G declares and shows the cells of the substreams gs: the
    conclusion of C52_workbook *)
Definition serves (b : wbook) (G : list grec) (gs : list (list frec)) : Prop :=
  wb_list b = map sheet_name (filter shown (g_sheets G)) /\
  wb_list_hidden b = map sheet_name (filter (fun s => negb (shown s)) (g_sheets G)) /\
  (forall a pos h t name c n sh, g_sheets G = a ++ (pos, h, t, name) :: c -> ~ In name (map sheet_name a) ->
     pos = offset gs n -> nth_error gs n = Some (xs_recs sh) -> xs_ok (zlen (book_strings G)) sh ->
     exists s, wb_get b name = Ok (Some s) /\ displays (book_formats G) (xs_writes go_trim (book_strings G) (g_xfs G) sh) (xs_rows sh) (xs_cols sh) s) /\
  (forall name, ~ In name (map sheet_name (g_sheets G)) -> wb_get b name = Err ESheetNotFound).

(** ** loading the records *)
Lemma load_filepass : forall w sz d rest, load_rec w (mkRec FILEPASS sz d) rest = Ok w.
Proof. intros. unfold load_rec. cbn [b_type b_data]. destruct (sl_len d =? 0); reflexivity. Qed.
Lemma load_sealed : forall p G1 fp G2 q w l, bof_ok p -> Forall grec_ok (G1 ++ G2) -> typed l (sealed_globals p G1 fp G2 q) -> load_recs w l = Ok (fold_left after_g (G1 ++ G2) w).
Proof.
  intros p G1 fp G2 q w l B F T. apply Forall_app in F. destruct F as [F1 F2]. unfold sealed_globals in T. start T sz d l' Ed Es. apply typed_app in T. destruct T as (l1 & l2 & -> & T1 & T2). start T2 sz2 d2 l3 Ed2 Es2.
  apply typed_app in T2. destruct T2 as (l4 & l5 & -> & T3 & T4). start T4 sz3 d3 l6 Ed3 Es3. apply typed_nil in T4. subst l6.
  cbn [load_recs]. rewrite load_bof by (auto; right; cbn [b_data]; rewrite Ed; exact B). cbn [bind]. rewrite (grecs_steps G1) by (auto; discriminate).
  cbn [load_recs]. rewrite load_filepass. cbn [bind]. rewrite (grecs_steps G2) by (auto; discriminate). cbn [load_recs].
  rewrite load_other; [|cbn [b_type]; unfold global_types, EOFR, FILEPASS; cbn [In]; intuition discriminate|discriminate]. cbn [bind]. rewrite fold_left_app. reflexivity.
Qed.

(** ** a record list without its closing EOF *)
Lemma continues_eof : forall l e, b_type e = EOFR -> continues (l ++ [e]) = continues l.
Proof.
  induction l as [|r l IH]; intros e E; cbn [app continues].
  - rewrite E. reflexivity.
  - rewrite IH by exact E. reflexivity.
Qed.
Lemma load_eof : forall l w e, b_type e = EOFR -> load_recs w (l ++ [e]) = load_recs w l.
Proof.
  induction l as [|r l IH]; intros w e E.
  - cbn [app load_recs]. rewrite load_other; [reflexivity| |]; rewrite E; [|discriminate]. unfold global_types, EOFR, FILEPASS. cbn [In]. intuition discriminate.
  - cbn [app load_recs]. assert (Q : load_rec w r (l ++ [e]) = load_rec w r l) by (unfold load_rec; rewrite continues_eof by exact E; reflexivity).
    rewrite Q. destruct (load_rec w r l); cbn [bind]; auto.
Qed.
Lemma load_streams_eof : forall a w l e, b_type e = EOFR -> load_streams w (a ++ [l ++ [e]]) = load_streams w (a ++ [l]).
Proof.
  induction a as [|x a IH]; intros w l e E; cbn [app load_streams].
  - rewrite load_eof by exact E. reflexivity.
  - destruct (load_recs w x); cbn [bind]; auto.
Qed.
Lemma scan_eof : forall l first insub s mr mc e, b_type e = EOFR -> scan_dims (l ++ [e]) first insub s mr mc = scan_dims l first insub s mr mc.
Proof.
  induction l as [|r l IH]; intros first insub s mr mc e E; cbn [app scan_dims].
  - rewrite E. destruct (0 <? insub); reflexivity.
  - destruct (0 <? insub); [apply IH, E|]. destruct (_ =? RecTypeBOF); [apply IH, E|]. destruct (_ =? RecTypeWsBool).
    { destruct (sl_idx _ _); cbn [bind]; auto. destruct (negb _); auto. }
    destruct (_ =? RecTypeDimensions); [|apply IH, E]. do 4 (destruct (field32 _ _) + destruct (field16 _ _); cbn [bind]; auto).
Qed.
Lemma conts_eof : forall l ucap e, b_type e = EOFR -> string_conts (l ++ [e]) ucap = string_conts l ucap.
Proof.
  induction l as [|r l IH]; intros ucap e E; cbn [app string_conts].
  - rewrite E. reflexivity.
  - rewrite IH by exact E. reflexivity.
Qed.
Lemma rec_eof : forall w mr mc st r l e, b_type e = EOFR -> sheet_rec w mr mc st r (l ++ [e]) = sheet_rec w mr mc st r l.
Proof.
  intros. unfold sheet_rec. destruct (_ =? RecTypeBoolErr); [reflexivity|]. destruct (_ =? RecTypeMulRk); [reflexivity|]. destruct (_ =? RecTypeNumber); [reflexivity|].
  destruct (_ =? RecTypeRK); [reflexivity|]. destruct (_ =? RecTypeFormula); [reflexivity|]. destruct (_ =? RecTypeString); [|reflexivity].
  destruct (string_head _ _) as [[t1 u]|x| |]; cbn [bind]; auto. rewrite conts_eof by assumption. reflexivity.
Qed.
Lemma recs_eof : forall l w mr mc first insub st e, b_type e = EOFR -> sheet_recs w mr mc (l ++ [e]) first insub st = sheet_recs w mr mc l first insub st.
Proof.
  induction l as [|r l IH]; intros w mr mc first insub st e E; cbn [app sheet_recs].
  - rewrite E. destruct (0 <? insub); [reflexivity|]. change (EOFR =? RecTypeBOF) with false. cbv iota. unfold sheet_rec. rewrite E. reflexivity.
  - destruct (0 <? insub); [apply IH, E|]. destruct (_ =? RecTypeBOF); [apply IH, E|]. rewrite rec_eof by exact E. destruct (sheet_rec _ _ _ _ _ _); cbn [bind]; auto.
Qed.
Definition with_streams (w : wbook) (ss : list (list brec)) : wbook := mkWB (wb_sheets w) (wb_strings w) (wb_date w) (wb_fx w) (wb_xfs w) ss (wb_map w).
Lemma with_recs : forall l w ss mr mc first insub st, sheet_recs (with_streams w ss) mr mc l first insub st = sheet_recs w mr mc l first insub st.
Proof.
  assert (MR : forall n w ss s d r c i, mul_rk (with_streams w ss) s d r c i n = mul_rk w s d r c i n).
  { induction n as [|n IH]; intros; cbn [mul_rk]; [reflexivity|]. destruct (from16 _ _); cbn [bind]; auto. destruct (from32 _ _); cbn [bind]; auto.
    change (xf_fmt (with_streams w ss)) with (xf_fmt w). destruct (put _ _ _ _ _); cbn [bind]; auto. }
  induction l as [|r l IH]; intros; cbn [sheet_recs]; [reflexivity|]. rewrite !IH.
  assert (E : sheet_rec (with_streams w ss) mr mc st r l = sheet_rec w mr mc st r l).
  { unfold sheet_rec. change (xf_fmt (with_streams w ss)) with (xf_fmt w). change (formula_rec (with_streams w ss)) with (formula_rec w). change (wb_strings (with_streams w ss)) with (wb_strings w).
    destruct (_ =? RecTypeBoolErr); [reflexivity|]. destruct (_ =? RecTypeMulRk); [|reflexivity]. destruct (field16 _ _); cbn [bind]; auto. destruct (field16 _ _); cbn [bind]; auto. rewrite MR. reflexivity. }
  rewrite E. destruct (0 <? insub); [reflexivity|]. destruct (_ =? RecTypeBOF); [reflexivity|]. destruct (sheet_rec w mr mc st r l); cbn [bind]; auto.
Qed.
Lemma idx_last : forall (a : list (list brec)) l k, idx (a ++ [l]) k = if k =? zlen a then Ok l else if (0 <=? k) && (k <? zlen a) then idx a k else Panic.
Proof.
  intros a l k. pose proof (zlen_nonneg _ a). destruct (Z.eqb_spec k (zlen a)) as [->|N]; [apply idx_app_exact; reflexivity|].
  destruct (Z.leb_spec 0 k); [destruct (Z.ltb_spec k (zlen a))|]; cbn [andb].
  - apply idx_app1. lia.
  - apply idx_out. rewrite zlen_app. change (zlen [l]) with 1. lia.
  - apply idx_out. lia.
Qed.
Lemma parse_eof : forall w a l e ss, b_type e = EOFR -> wb_streams w = a ++ [l] -> parse_sheet (with_streams w (a ++ [l ++ [e]])) ss = parse_sheet w ss.
Proof.
  intros w a l e ss E HW. unfold parse_sheet. rewrite HW. cbn [with_streams wb_streams wb_fx]. rewrite !idx_last. destruct (ss =? zlen a); cbn [bind].
  - rewrite scan_eof by exact E. destruct (scan_dims l true 0 (empty_sheet (wb_fx w)) 0 0) as [[[[s mr] mc]|]|x| |]; cbn [bind]; auto.
    fold (with_streams w (a ++ [l ++ [e]])). rewrite with_recs, recs_eof by exact E. reflexivity.
  - destruct ((0 <=? ss) && (ss <? zlen a)); [|reflexivity]. destruct (idx a ss) as [y|x| |]; cbn [bind]; auto.
    destruct (scan_dims y true 0 (empty_sheet (wb_fx w)) 0 0) as [[[[s mr] mc]|]|x| |]; cbn [bind]; auto.
    fold (with_streams w (a ++ [l ++ [e]])). rewrite with_recs. reflexivity.
Qed.
Lemma get_eof : forall w a l e name, b_type e = EOFR -> wb_streams w = a ++ [l] -> wb_get (with_streams w (a ++ [l ++ [e]])) name = wb_get w name.
Proof.
  intros w a l e name E HW. unfold wb_get. cbn [with_streams wb_sheets]. induction (wb_sheets w) as [|s ss IH]; cbn [get_loop]; [reflexivity|].
  destruct (str_eqb _ _); [|exact IH]. apply parse_eof; assumption.
Qed.

(** ** splitting the decrypted stream *)
(** a top-level group without its closing EOF *)
Lemma feed_open : forall p b, nested b -> forall brs st, map payload brs = (BOF, p) :: b -> st_nest st = 0 ->
  feed_records brs st = Ok (mkBst (zlen (st_streams st)) 1 (st_pos st + rlen brs) (st_streams st ++ [brs]) (zput (st_pos st) (zlen (st_streams st)) (st_map st))).
Proof.
  intros p b N brs st HP HN. destruct brs as [|r brs]; [discriminate|]. cbn [map] in HP. injection HP as HT HD HP'. cbn [feed_records].
  assert (EN : enter st r = mkBst (zlen (st_streams st)) 1 (st_pos st + (4 + sl_len (b_data r))) (st_streams st ++ [[]]) (zput (st_pos st) (zlen (st_streams st)) (st_map st))).
  { unfold enter. rewrite HT. change (BOF =? RecTypeEOF) with false. change (BOF =? RecTypeBOF) with true. rewrite HN. reflexivity. }
  rewrite EN. erewrite store_last; cbn [st_streams st_sub]; eauto. cbn [bind app st_nest st_pos st_map].
  erewrite feed_inner; cbn [st_streams st_sub st_nest st_pos st_map]; eauto; [|lia]. change (r :: brs) with ([r] ++ brs). rewrite rlen_app. cbn [rlen fold_right app]. do 2 f_equal. lia.
Qed.
Lemma group_map_app : forall a b k pos m, group_map (a ++ b) k pos m = group_map b (k + zlen a) (pos + zlen (stream (concat a))) (group_map a k pos m).
Proof.
  induction a as [|g a IH]; intros b k pos m; cbn [app group_map concat].
  - rewrite !Z.add_0_r. reflexivity.
  - rewrite IH, stream_app, zlen_app, zlen_cons, !Z.add_assoc. reflexivity.
Qed.
Lemma trim_snoc : forall a r, trim_last (a ++ [r]) = if zlen (snd r) =? 0 then a else a ++ [r].
Proof.
  induction a as [|x a IH]; intros r; cbn [app trim_last]; [reflexivity|]. rewrite IH. destruct (a ++ [r]) as [|y l] eqn:E; [destruct a; discriminate|].
  destruct (zlen (snd r) =? 0); reflexivity.
Qed.
Lemma last_group : forall gs, gs <> [] -> Forall group gs -> exists a p b q, gs = a ++ [(BOF, p) :: b ++ [(EOFR, q)]] /\ nested b /\ Forall group a.
Proof.
  intros gs N F. destruct (exists_last N) as (a & g & ->). apply Forall_app in F. destruct F as [Fa Fg]. inversion Fg as [|? ? (p & b & q & -> & Nb) _]; subst. exists a, p, b, q. auto.
Qed.
Definition book_end (st : bst) (gs : list (list frec)) (full : list (list brec)) : Prop :=
  (full = st_streams st \/ exists a l e, st_streams st = a ++ [l] /\ full = a ++ [l ++ [e]] /\ b_type e = EOFR) /\
  map (map payload) full = gs /\ Forall (Forall (fun r => b_size r = sl_len (b_data r))) full /\
  (forall pos k, zfind pos (st_map st) = Some k <-> exists n, k = Z.of_nat n /\ (n < List.length gs)%nat /\ pos = offset gs n).
(** What the first pass makes of the decrypted stream: the groups, except that the closing EOF
    of the last one is missing when it is empty. *)
Lemma split_trimmed : forall gs sp st, gs <> [] -> Forall group gs -> Forall (Forall (rec_fits 65531)) gs ->
  split_stream (mkSl (stream (trim_last (concat gs))) sp) true = Ok (LDone st) -> exists full, book_end st gs full.
Proof.
  intros gs sp st N F FF E. assert (FC : Forall (rec_fits 65531) (concat gs)) by (clear - FF; induction FF; cbn [concat]; [constructor|]; apply Forall_app; auto).
  pose proof (split_stream_records (trim_last (concat gs)) [] sp true (trim_forall _ _ FC) (or_introl eq_refl) eq_refl) as Q. rewrite app_nil_r, E in Q. cbn [app] in Q.
  destruct (last_group gs N F) as (a & p & b & q & EG & Nb & Fa).
  assert (EC : concat gs = concat a ++ ((BOF, p) :: b) ++ [(EOFR, q)]) by (rewrite EG, concat_app; cbn [concat app]; rewrite app_nil_r; reflexivity).
  rewrite EC, app_assoc, trim_snoc in Q. cbn [snd] in Q. destruct (Z.eqb_spec (zlen q) 0) as [Z0|Z0].
  - rewrite brecs_app, feed_app in Q. set (rest := stream ((BOF, p) :: b) ++ sp) in Q.
    destruct (feed_groups a rest bst0 Fa eq_refl) as (sub & E1). rewrite E1 in Q. cbn [bind bst0 st_streams st_pos st_map app] in Q. change (zlen (@nil (list brec))) with 0 in Q. rewrite Z.add_0_l in Q.
    rewrite (feed_open p b Nb) in Q by (auto; apply brecs_payload). cbn [bind st_streams st_pos st_map] in Q. injection Q as ->.
    set (l := brecs ((BOF, p) :: b) sp). set (e := mkRec EOFR 0 (mkSl [] [])). exists (group_recs a rest ++ [l ++ [e]]). split; [right; exists (group_recs a rest), l, e; auto|].
    assert (MP : map (map payload) (group_recs a rest ++ [l ++ [e]]) = gs).
    { rewrite map_app, group_recs_payload. cbn [map]. rewrite map_app. unfold l. rewrite brecs_payload, EG. apply zlen_0 in Z0. subst q. reflexivity. }
    split; [exact MP|]. split.
    { apply Forall_app. split; [apply group_recs_sizes|]. constructor; [|constructor]. apply Forall_app. split; [apply brecs_sizes|]. constructor; [reflexivity|constructor]. }
    cbn [st_map]. intros pos k. rewrite <- (group_map_offset gs pos k F), EG, group_map_app. cbn [group_map]. rewrite !Z.add_0_l.
    replace (zlen (group_recs a rest)) with (zlen a); [reflexivity|]. clear - rest. unfold zlen. f_equal. rewrite <- (map_length (map payload)), group_recs_payload. reflexivity.
  - rewrite <- app_assoc, <- EC in Q. destruct (feed_groups gs sp bst0 F eq_refl) as (sub & E1). rewrite E1 in Q. cbn [bind bst0 st_streams st_pos st_map app] in Q. injection Q as ->.
    exists (group_recs gs sp). split; [left; reflexivity|]. split; [apply group_recs_payload|]. split; [apply group_recs_sizes|]. intros pos k. cbn [st_map]. apply group_map_offset. exact F.
Qed.

(** ** the workbook *)
Lemma serves_full : forall G gs st w, Forall grec_ok G -> streams_of st = gs -> Forall (Forall (fun r => b_size r = sl_len (b_data r))) (st_streams st) ->
  (forall pos k, zfind pos (st_map st) = Some k <-> exists n, k = Z.of_nat n /\ (n < List.length gs)%nat /\ pos = offset gs n) ->
  w = fold_left after_g G (new_wbook st) -> serves w G gs.
Proof.
  intros G gs st w FG S Z M HW.
  assert (WS : wb_sheets w = map as_bsheet (g_sheets G)) by (rewrite HW, after_sheets; reflexivity).
  unfold serves, wb_list, wb_list_hidden, wb_get. rewrite WS. split; [apply names_shown, visible_shown|]. split; [apply names_shown; intros s; rewrite visible_shown; reflexivity|]. split.
  - intros a pos h t name b n sh HG NA HP HN OK. rewrite HG, get_loop_first by exact NA. destruct (after_frame G (new_wbook st)) as [W1 W2]. rewrite <- HW in W1, W2. cbn [new_wbook wb_streams wb_map] in W1, W2. rewrite W2.
    assert (LN : (n < List.length gs)%nat) by (apply nth_error_Some; congruence).
    assert (ZF : zfind pos (st_map st) = Some (Z.of_nat n)) by (apply M; exists n; auto). rewrite ZF.
    destruct (typed_of st n (xs_recs sh)) as (l & I & T); [exact Z|rewrite S; exact HN|].
    assert (WT : wb_strings w = book_strings G) by (rewrite HW, after_strings; reflexivity).
    assert (WX : wb_xfs w = g_xfs G) by (rewrite HW, after_xfs; reflexivity).
    assert (WF : wb_fx w = book_formats G) by (rewrite HW, after_fx; reflexivity).
    destruct (parse_sheet_ok w (Z.of_nat n) l sh) as (s & P & D).
    + rewrite WF. apply reach_formats. constructor.
    + rewrite WX. apply xfs_fit. exact FG.
    + rewrite W1. exact I.
    + exact T.
    + rewrite WT. exact OK.
    + rewrite WF, WT, WX in D. exists s. split; assumption.
  - intros name N. apply get_loop_none. exact N.
Qed.
Lemma after_with : forall G w ss, fold_left after_g G (with_streams w ss) = with_streams (fold_left after_g G w) ss.
Proof. induction G as [|g G IH]; intros w ss; cbn [fold_left]; [reflexivity|]. rewrite <- IH. f_equal. destruct g; reflexivity. Qed.
Lemma serves_end : forall G gs st full, Forall grec_ok G -> book_end st gs full -> serves (fold_left after_g G (new_wbook st)) G gs.
Proof.
  intros G gs st full FG (EN & S & Z & M). destruct EN as [->|(a & l & e & E1 & E2 & T)]; [apply (serves_full G gs st); auto|].
  set (w := fold_left after_g G (new_wbook st)). set (st2 := mkBst (st_sub st) (st_nest st) (st_pos st) full (st_map st)).
  destruct (serves_full G gs st2 (with_streams w full) FG S Z M) as (L1 & L2 & L3 & L4); [unfold w; rewrite <- after_with; reflexivity|].
  assert (HW : wb_streams w = a ++ [l]) by (unfold w; rewrite (proj1 (after_frame G (new_wbook st))); exact E1).
  split; [exact L1|]. split; [exact L2|]. split.
  - intros a0 pos h t name c n sh H1 H2 H3 H4 H5. destruct (L3 a0 pos h t name c n sh H1 H2 H3 H4 H5) as (s & A & B). exists s. split; [|exact B]. rewrite E2, (get_eof w a l e name T HW) in A. exact A.
  - intros name N. specialize (L4 name N). rewrite E2, (get_eof w a l e name T HW) in L4. exact L4.
Qed.
Lemma sealed_group : forall p G1 fp G2 q, Forall grec_ok (G1 ++ G2) -> group (sealed_globals p G1 fp G2 q) /\ Forall (fun r => fst r <> FILEPASS) (flat_map grec_recs G1).
Proof.
  intros p G1 fp G2 q F. apply Forall_app in F. destruct F as [F1 F2]. destruct (globals_group p G1 q F1) as [(p1 & b1 & q1 & E1 & N1) T1]. destruct (globals_group p G2 q F2) as [(p2 & b2 & q2 & E2 & N2) _].
  unfold globals_recs in *. injection E1 as _ E1. injection E2 as _ E2. apply app_inj_tail in E1. apply app_inj_tail in E2. destruct E1 as [<- _], E2 as [<- _]. split.
  - exists p, (flat_map grec_recs G1 ++ (FILEPASS, fp) :: flat_map grec_recs G2), q. split; [unfold sealed_globals; rewrite <- app_assoc; reflexivity|].
    assert (NA : forall a, nested a -> forall b, nested b -> nested (a ++ b)).
    { intros a Ha. induction Ha as [|ty r l A1 A2 A3 IH|r b1 r2 l A1 IH1 A2 IH2]; intros b Hb; [exact Hb|cbn [app]; constructor; auto|].
      cbn [app]. rewrite <- app_assoc. cbn [app]. apply ne_group; auto. }
    apply NA; [exact N1|]. apply ne_rec; [discriminate|discriminate|exact N2].
  - apply Forall_inv_tail in T1. apply Forall_app in T1. tauto.
Qed.
(** The workbook stream encrypted with the default password: opening it succeeds, and it lists
    and shows exactly what C52_workbook says of the plaintext records. *)
Theorem C88_workbook : forall p G1 salt verifier G2 q rest sp sp2,
  bytes_ok salt -> zlen salt = 16 -> zlen verifier = 16 ->
  bof_ok p -> Forall grec_ok (G1 ++ G2) -> Forall (Forall local_rec) rest -> Forall group rest ->
  let gs := sealed_globals p G1 (rc4_filepass salt verifier) G2 q :: rest in
  Forall (Forall (rec_fits 65531)) gs -> Forall (Forall encryptable) gs ->
  exists w, load_workbook (mkSl (stream (enc_recs (base_key default_password salt) 0 (concat gs))) sp) sp2 = Ok w /\ serves w (G1 ++ G2) gs.
Proof.
  intros p G1 salt verifier G2 q rest sp sp2 BS LS LV B FG FL GR gs FF FE. destruct (sealed_group p G1 (rc4_filepass salt verifier) G2 q FG) as [GG NF].
  assert (FC : forall P : frec -> Prop, Forall (Forall P) gs -> Forall P (concat gs)) by (intros P FP; clear - FP; induction FP; cbn [concat]; [constructor|]; apply Forall_app; auto).
  set (pre := flat_map grec_recs G1) in *. set (post := flat_map grec_recs G2 ++ [(EOFR, q)] ++ concat rest).
  assert (EC : concat gs = (BOF, p) :: pre ++ (FILEPASS, put16 1 ++ rc4_header default_password salt verifier) :: post).
  { unfold gs, sealed_globals, pre, post, rc4_filepass. cbn [concat app]. rewrite <- !app_assoc. cbn [app]. rewrite <- app_assoc. reflexivity. }
  destruct (C44_open p pre post salt verifier sp sp2 BS LS LV) as (st & E & _ & S2).
  - unfold post. destruct (flat_map grec_recs G2); discriminate.
  - rewrite <- EC. apply FC, FE.
  - rewrite <- EC. apply FC, FF.
  - exact NF.
  - rewrite <- EC in E, S2. destruct (split_trimmed gs sp2 st) as (full & BE); auto; [discriminate|constructor; auto|].
    exists (fold_left after_g (G1 ++ G2) (new_wbook st)). split; [|apply (serves_end _ _ _ full); auto]. unfold load_workbook. rewrite E. cbn [bind].
    destruct BE as (EN & S & Z & _).
    assert (LD : load_streams (new_wbook st) (st_streams st) = load_streams (new_wbook st) full) by (destruct EN as [->|(a & l & e & -> & -> & T)]; [reflexivity|symmetry; apply load_streams_eof; exact T]).
    rewrite LD. destruct full as [|l0 ls]; [discriminate|]. unfold gs in S. cbn [map] in S. pose proof (f_equal (hd []) S) as S0. pose proof (f_equal (@tl _) S) as S1. cbn [hd tl] in S0, S1. apply Forall_cons_iff in Z. destruct Z as [Z0 Z1].
    cbn [load_streams]. erewrite load_sealed; [|exact B|exact FG|split; [exact S0|exact Z0]]. cbn [bind]. apply (load_locals (map (map payload) ls)); auto. rewrite S1. exact FL.
Qed.

(** The same through the compound file: a file that stores the encrypted stream is opened, under
    any name and registration order, and shows the plaintext sheets. *)
Theorem C88_file : forall sizes sp1 sp2 sp3 unzip order iter rd srt fn w data p G1 salt verifier G2 q rest,
  (forall i, 0 < sizes i) -> sorts_by_priority srt ->
  bytes_ok salt -> zlen salt = 16 -> zlen verifier = 16 ->
  bof_ok p -> Forall grec_ok (G1 ++ G2) -> Forall (Forall local_rec) rest -> Forall group rest ->
  let gs := sealed_globals p G1 (rc4_filepass salt verifier) G2 q :: rest in
  Forall (Forall (rec_fits 65531)) gs -> Forall (Forall encryptable) gs ->
  os_file w fn = FileData data None -> stores data (bs "Workbook") (stream (enc_recs (base_key default_password salt) 0 (concat gs))) ->
  exists N b,
    (forall fuel hist, (N <= fuel)%nat -> Permutation hist (stock fuel sizes sp1 sp2 sp3 unzip order iter rd) ->
       open_file (registered srt hist) fn w = (Ok (SrcXls b), hold fn w)) /\
    src_list (SrcXls b) = map sheet_name (filter shown (g_sheets (G1 ++ G2))) /\ serves b (G1 ++ G2) gs.
Proof.
  intros sizes sp1 sp2 sp3 unzip order iter rd srt fn w data p G1 salt verifier G2 q rest HZ HS BS LS LV B FG FL GR gs FF FE HW ST.
  destruct (C88_workbook p G1 salt verifier G2 q rest sp2 sp3 BS LS LV B FG FL GR FF FE) as (b & E & SV).
  destruct (xls_stream_stored data _ sizes sp1 ST HZ) as (N & HX).
  exists N, b. split; [|split; [exact (proj1 SV)|exact SV]]. intros fuel hist Fu HP. rewrite (stock_table fuel sizes sp1 sp2 sp3 unzip order iter rd srt hist HS HP).
  unfold stock. cbn [open_file xls_entry tab_op]. unfold xls_open. rewrite HW, HX by exact Fu. cbn [bind]. fold gs in E. rewrite E. cbn [bind]. reflexivity.
Qed.

(** ** an encrypted workbook that meets the hypotheses *)
Definition exe_pos : Z := P_xls.ex_pos + 58.
Definition exe_book : list (list frec) := [sealed_globals P_xls.ex_bof [GCodePage 1200 []] (rc4_filepass ex_salt ex_verifier) (tl (P_xls.ex_globals exe_pos)) []; xs_recs P_xls.ex_sheet].
Lemma exe_ok : Forall (Forall (rec_fits 65531)) exe_book /\ Forall (Forall encryptable) exe_book.
Proof.
  assert (L : zlen (rc4_filepass ex_salt ex_verifier) = 54) by (unfold rc4_filepass; rewrite zlen_app, rc4_header_len by reflexivity; reflexivity).
  assert (P : forall g r, In g exe_book -> In r g -> rec_fits 65531 r /\ encryptable r).
  { intros g r Hg Hr. assert (C : r = (FILEPASS, rc4_filepass ex_salt ex_verifier) \/ In r (concat [flat_map grec_recs [GCodePage 1200 []]; globals_recs P_xls.ex_bof (tl (P_xls.ex_globals exe_pos)) []; xs_recs P_xls.ex_sheet])).
    { destruct Hg as [<-|[<-|[]]].
      - unfold sealed_globals in Hr. cbn [concat]. unfold globals_recs. cbn [In] in Hr. rewrite in_app_iff in Hr. cbn [In] in Hr. rewrite !in_app_iff. cbn [In]. rewrite in_app_iff in *. cbn [In] in *. intuition.
      - right. cbn [concat]. rewrite !in_app_iff. auto. }
    destruct C as [->|C].
    - destruct (filepass_ok _ L). auto.
    - set (ok := fun r : frec => (0 <=? fst r) && (fst r <? 65536) && (zlen (snd r) <=? 8224) && (negb (fst r =? BOUNDSHEET) || (4 <=? zlen (snd r)))).
      assert (Q : forallb ok (concat [flat_map grec_recs [GCodePage 1200 []]; globals_recs P_xls.ex_bof (tl (P_xls.ex_globals exe_pos)) []; xs_recs P_xls.ex_sheet]) = true) by (vm_compute; reflexivity).
      rewrite forallb_forall in Q. specialize (Q r C). unfold ok in Q. unfold rec_fits, encryptable. lia. }
  split; apply Forall_forall; intros g Hg; apply Forall_forall; intros r Hr; destruct (P g r Hg Hr); assumption.
Qed.
Example ex_C88 : exists w, load_workbook (mkSl (stream (enc_recs (base_key default_password ex_salt) 0 (concat exe_book))) []) [] = Ok w /\
  wb_list w = [bs "Data"] /\ wb_list_hidden w = [[226; 130; 172]] /\ wb_get w (bs "Other") = Err ESheetNotFound /\
  exists s, wb_get w (bs "Data") = Ok (Some s) /\ displays (book_formats (P_xls.ex_globals exe_pos)) (xs_writes go_trim (book_strings (P_xls.ex_globals exe_pos)) [0; 164] P_xls.ex_sheet) 8 3 s.
Proof.
  destruct exe_ok as [F1 F2]. destruct (C88_workbook P_xls.ex_bof [GCodePage 1200 []] ex_salt ex_verifier (tl (P_xls.ex_globals exe_pos)) [] [xs_recs P_xls.ex_sheet] [] []) as (w & E & L1 & L2 & G1 & G2); auto.
  - apply Forall_forall. intros x Hx. vm_compute in Hx. intuition lia.
  - apply P_xls.ex_globals_ok.
  - assert (P : 0 <= exe_pos < 4294967296) by (vm_compute; intuition congruence). revert P. generalize exe_pos. intros pos P. unfold P_xls.ex_globals. cbn [tl app].
    repeat constructor; unfold w16, w32, units_fit, fits16 in *; cbn [grec_ok]; try exact (Forall_forall _ _); P_xls.dec; try lia; try (vm_compute; intuition congruence); try exact ex_C48_ok.
  - apply (proj1 P_xls.ex_C52).
  - apply (proj1 (proj2 P_xls.ex_C52)).
  - exists w. split; [exact E|]. split; [rewrite L1; reflexivity|]. split; [rewrite L2; vm_compute; reflexivity|]. split; [apply G2; vm_compute; intuition congruence|].
    apply (G1 [(0, 2, 0, utf16_string [8364])] exe_pos 0 0 (bs "Data") [] 1%nat P_xls.ex_sheet).
    + reflexivity.
    + vm_compute. intuition congruence.
    + unfold offset. cbn [firstn concat]. rewrite app_nil_r. unfold sealed_globals. rewrite stream_cons, stream_app, stream_cons, !zlen_app, !zlen_enc_rec. cbn [snd].
      unfold rc4_filepass. rewrite (zlen_app _ (put16 1)), rc4_header_len by reflexivity. vm_compute. reflexivity.
    + reflexivity.
    + apply P_xls.ex_sheet_ok.
Qed.

Print Assumptions C88_workbook.
Print Assumptions C88_file.

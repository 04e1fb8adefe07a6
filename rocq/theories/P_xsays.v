(** * P_xsays: C105 — an XLSX sheet shows what its own part says, whatever package it comes from. *)
From Verif Require Import GoBase L_base GoPath GoFloat L_float GoUnicode GoTime M_grate M_value M_dates M_fmt M_formats M_cell M_sheet M_xls M_xlsx S_cell L_cell S_sheet L_sheet S_grid L_grid S_xls L_xls
  S_xlsx L_xlsxref L_xlsx L_xlsxpkg L_simple P_sheet P_xlsx S_xrobust P_xrobust S_xsays.
From Coq Require Import Lia ZifyBool ZifyNat.
Local Opaque f_of_bits fdiv f_of_Z put set_value set_url fx_add parse_float ref_to_indexes resize parse_int.

(** ** one token *)
Lemma text_said : forall strs ty v o, cell_text_value strs ty v = Ok o -> ty <> [] -> o = Some (text_says strs ty v).
Proof.
  intros strs ty v o H N. unfold cell_text_value, text_says in *. destruct (str_eqb ty (bs "b")). { destruct v; cbn [bind] in H; [discriminate|]. rewrite idx_0 in H. cbn [bind] in H. injection H as <-. reflexivity. }
  destruct (str_eqb ty (bs "n")). { unfold number_value. destruct (parse_float v) as [f []]; injection H as <-; reflexivity. }
  destruct (str_eqb ty (bs "s")). { destruct (idx strs _) as [t| | |] eqn:E; cbn [bind] in H; try discriminate. injection H as <-. apply idx_inv in E. destruct E as [_ E]. unfold number. rewrite (nth_error_nth _ _ _ E). reflexivity. }
  destruct (str_case ty []) as [[-> _]|[_ ->]] in H; [congruence|]. injection H as <-. reflexivity.
Qed.
Lemma text_good : forall strs ty v, good_value (text_says strs ty v).
Proof. intros. unfold text_says. repeat destruct (str_eqb _ _); auto using good_bool, good_str, good_number. Qed.
Lemma in_marks : forall r0 r1 c0 c1 r c w, In (r, c, w) (region_cells (r0, r1, c0, c1) []) -> r0 <= r <= r1 /\ c0 <= c <= c1 /\ (c, r) <> (c0, r0) /\ exists t, w = WPut (GStr t) 0.
Proof.
  intros r0 r1 c0 c1 r c w H. unfold region_cells in H. apply in_flat_map in H. destruct H as (a & Ia & H). apply in_flat_map in H. destruct H as (b & Ib & H). apply in_map_iff in H. destruct H as (x & E & I). injection E as -> -> ->.
  unfold zrange in Ia, Ib. apply in_map_iff in Ia. destruct Ia as (i & <- & Ii). apply in_seq in Ii. apply in_map_iff in Ib. destruct Ib as (j & <- & Ij). apply in_seq in Ij.
  destruct ((r0 + Z.of_nat i =? r0) && (c0 + Z.of_nat j =? c0)) eqn:C; [destruct I|]. destruct I as [<-|[]]. split; [lia|]. split; [lia|]. split; [intros Q; injection Q; lia|eauto].
Qed.
Lemma pos_val : forall r c k, ref_to_indexes r = Ok (c, k) -> pos_of r = (c, k).
Proof. intros r c k H. unfold pos_of. rewrite H. reflexivity. Qed.
Definition typed_cell (x : xctx) : Prop := cx_ref x <> [] -> cx_type x <> [].
Lemma typed_next : forall x t, typed_cell x -> typed_cell (remember x t).
Proof.
  intros x [n a|n|v|] H; cbn [remember]; auto; [|destruct (str_eqb n (bs "c")); [intros Q; cbn in Q; congruence|exact H]]. destruct (str_eqb n (bs "c")); [intros _; cbn [cx_type]; destruct (get_attr a (bs "t")); discriminate|]. destruct (str_eqb n (bs "dimension")); exact H.
Qed.
Lemma tok_run : forall d links x st t st' seen, reach_fx (xd_fmt d) -> Forall w16 (xd_xfs d) -> inv d seen st -> matches x st -> typed_cell x -> (forall a, t <> XStart (bs "dimension") a) ->
  sheet_tok d links st t = Ok st' ->
  let ws := tok_says (xd_strings d) (fun k => sfind k links) x (xp_fno st) t in
  run_writes (xp_sheet st) ws = Ok (xp_sheet st') /\ Forall good_write ws /\ xp_fno st' = format_after (xd_xfs d) (xp_fno st) t.
Proof.
  intros d links x st t st' seen HX HW I M TC ND H ws. pose proof I as (R & F & B). pose proof M as (M1 & M2 & M3 & M4). subst ws.
  destruct t as [n a|n|v|]; cbn [sheet_tok tok_says format_after] in *.
  - destruct (str_case n (bs "dimension")) as [[-> E]|[N1 E]]; [destruct (ND a eq_refl)|]. rewrite E in H. destruct (str_case n (bs "c")) as [[-> E2]|[N2 E2]].
    { rewrite E2 in H. change (str_eqb (bs "c") (bs "mergeCell")) with false. change (str_eqb (bs "c") (bs "hyperlink")) with false. change (str_eqb (bs "c") (bs "c")) with true. cbn iota. unfold sheet_c in H. cbv zeta in H.
      destruct (if _ <? _ then _ else _) as [fno| | |] eqn:EF in H; cbn [bind] in H; try discriminate. injection H as <-. cbn [xp_sheet xp_fno run_writes]. split; [reflexivity|]. split; [constructor|]. change (int_attr 64) with number in EF.
      destruct (Z.ltb_spec (number (get_attr a (bs "s"))) (zlen (xd_xfs d))).
      - apply idx_inv in EF. destruct EF as [_ EF]. rewrite (nth_error_nth _ _ _ EF). reflexivity.
      - injection EF as <-. rewrite nth_overflow; [reflexivity|]. unfold zlen in *. lia. }
    rewrite E2 in H |- *. destruct (str_case n (bs "mergeCell")) as [[-> E3]|[N3 E3]].
    { rewrite E3 in H |- *. destruct (merge_step d x st a seen I M) as [[_ Q]|[NF _]]; [congruence|]. unfold sheet_merge in H. set (ref := get_attr a (bs "ref")) in *.
      assert (E0 : idx (split_byte 58 ref) 0 = Ok (range_start ref)) by (unfold range_start; destruct (split_shape 58 ref) as (p & q & ->); reflexivity). rewrite E0 in H. cbn [bind] in H.
      destruct (ref_cases (range_start ref)) as [[RV Q]|[NR (c0 & r0 & ER)]]; [rewrite Q in H; discriminate|]. rewrite ER in H. cbn [bind] in H.
      assert (EE : (if 1 <? zlen (split_byte 58 ref) then d1 <- idx (split_byte 58 ref) 1 ;; ref_to_indexes d1 else Ok (c0, r0)) = ref_to_indexes (range_end ref)).
      { revert ER. unfold range_start, range_end. destruct (split_shape 58 ref) as (p & q & ->). destruct q as [|q l]; [intros ->; reflexivity|]. rewrite !zlen_cons. pose proof (zlen_nonneg _ l). destruct (Z.ltb_spec 1 (1 + (1 + zlen l))); [|lia]. reflexivity. }
      rewrite EE in H. destruct (ref_cases (range_end ref)) as [[RV Q]|[NR2 (c1 & r1 & ER1)]]; [rewrite Q in H; discriminate|]. rewrite ER1 in H. cbn [bind] in H. rewrite M3, M4 in H. rewrite (pos_val _ _ _ ER), (pos_val _ _ _ ER1).
      replace (if cx_row x <? r1 then cx_row x else r1) with (Z.min r1 (cx_row x)) in H by (destruct (Z.ltb_spec (cx_row x) r1); lia). replace (if cx_col x <? c1 then cx_col x else c1) with (Z.min c1 (cx_col x)) in H by (destruct (Z.ltb_spec (cx_col x) c1); lia).
      rewrite put_all_writes, merge_region, region_writes_ok in H. destruct (run_writes (xp_sheet st) _) as [s| | |] eqn:RW; cbn [bind] in H; try discriminate. injection H as <-. split; [reflexivity|]. split; [|reflexivity].
      apply Forall_forall. intros [[r c] w] IN. apply in_marks in IN. destruct IN as (Q1 & Q2 & Q3 & (tx & ->)). cbn [good_write fst snd].
      assert (NN : ~ (c < 0 \/ r < 0)) by (intros NN; apply NF; right; right; exists c0, r0, c1, r1, c, r; unfold at_pos; auto 7). clear - NN. unfold good_write; cbn [fst snd]. split; [lia|]. split; [lia|]. split; [split; reflexivity || discriminate|apply good_str]. }
    rewrite E3 in H |- *. destruct (str_case n (bs "hyperlink")) as [[-> E4]|[N4 E4]].
    { rewrite E4 in H |- *. destruct (link_step d links x st a seen I M) as [[_ Q]|[NF _]]; [congruence|]. unfold sheet_link in H. destruct (ref_cases (get_attr a (bs "ref"))) as [[RV Q]|[NR (c & r & ER)]]; [rewrite Q in H; discriminate|]. rewrite ER in H. cbn [bind] in H. rewrite (pos_val _ _ _ ER).
      cbn [run_writes run_write]. set (link := match sfind _ links with Some l => l | None => [] end) in *. destruct (put (xp_sheet st) r c (GStr link) 0) as [s| | |] eqn:P; cbn [bind] in *; try discriminate. destruct (set_url s r c link) as [s2| | |] eqn:U; cbn [bind] in *; try discriminate. injection H as <-. split; [reflexivity|]. split; [|reflexivity].
      constructor; [|constructor]. assert (NN : ~ (c < 0 \/ r < 0)) by (intros NN; apply NF; right; exists c, r; unfold at_pos; auto). clear - NN. unfold good_write; cbn [fst snd]. lia. }
    rewrite E4 in H |- *. injection H as <-. cbn [run_writes]. auto.
  - injection H as <-. cbn [run_writes]. destruct (str_eqb n (bs "c")); auto.
  - unfold sheet_chars in H. rewrite M1 in H. destruct (cx_ref x) as [|b ref] eqn:ER; [injection H as <-; cbn [run_writes]; auto|]. rewrite <- ER in *. destruct (ref_cases (cx_ref x)) as [[RV Q]|[NR (c & r & EQ)]]; [rewrite Q in H; discriminate|]. rewrite EQ in H. cbn [bind] in H. rewrite (pos_val _ _ _ EQ).
    destruct ((0 <=? c) && (0 <=? r)) eqn:NN; [|injection H as <-; cbn [run_writes]; auto]. destruct (cell_text_value _ _ _) as [o| | |] eqn:CV in H; cbn [bind] in H; try discriminate. rewrite M2 in CV. apply text_said in CV; [|apply TC; congruence]. subst o.
    cbn [run_writes run_write]. destruct (put _ _ _ _ _) as [s| | |] eqn:P; cbn [bind] in *; try discriminate. injection H as <-. split; [reflexivity|]. split; [|reflexivity]. constructor; [|constructor]. clear - NN F. unfold good_write; cbn [fst snd]. split; [lia|]. split; [lia|]. split; [exact F|apply text_good].
  - injection H as <-. cbn [run_writes]. auto.
Qed.

(** ** all tokens *)
Definition no_dim (t : xtok) : Prop := forall a, t <> XStart (bs "dimension") a.
Lemma toks_run : forall d links l x st st', reach_fx (xd_fmt d) -> Forall w16 (xd_xfs d) -> inv d true st -> matches x st -> typed_cell x -> Forall no_dim l ->
  sheet_toks d links l st = Ok st' ->
  let ws := xsays (xd_strings d) (xd_xfs d) (fun k => sfind k links) l x (xp_fno st) in
  run_writes (xp_sheet st) ws = Ok (xp_sheet st') /\ Forall good_write ws.
Proof.
  intros d links. induction l as [|t l IH]; intros x st st' HX HW I M TC ND H; cbn [sheet_toks xsays] in *; cbv zeta. { injection H as <-. split; [reflexivity|constructor]. }
  inversion ND as [|? ? N0 NL]; subst. destruct (step_cases d links x st t true HX HW I M ltac:(intros a Q; destruct (N0 a Q))) as [[_ Q]|[_ (st1 & E & I1 & M1)]]; [rewrite Q in H; discriminate|]. rewrite E in H. cbn [bind] in H.
  destruct (tok_run d links x st t st1 true HX HW I M TC N0 E) as (R1 & G1 & F1). assert (NS : next_seen true t = true) by (destruct t; reflexivity). rewrite NS in I1.
  destruct (IH (remember x t) st1 st' HX HW I1 M1 (typed_next _ _ TC) NL H) as (R2 & G2). rewrite F1 in R2, G2. split; [rewrite run_writes_app, R1; exact R2|apply Forall_app; auto].
Qed.

Lemma dims_over : forall l, dim_first l true -> Forall no_dim l.
Proof.
  induction l as [|t l IH]; intros H; [constructor|]. destruct (dim_next _ _ _ H) as [A B]. assert (NS : next_seen true t = true) by (destruct t; reflexivity). rewrite NS in B. constructor; [intros a Q; discriminate (A a Q)|apply IH, B].
Qed.
Lemma no_dim_size : forall l x, Forall no_dim l -> cx_row (fold_left remember l x) = cx_row x /\ cx_col (fold_left remember l x) = cx_col x.
Proof.
  induction l as [|t l IH]; intros x H; [auto|]. inversion H as [|? ? N NL]; subst. cbn [fold_left]. destruct (IH (remember x t) NL) as [-> ->]. destruct t as [n a|n|v|]; cbn [remember]; auto; [|destruct (str_eqb n (bs "c")); auto].
  destruct (str_eqb n (bs "c")); auto. destruct (str_case n (bs "dimension")) as [[-> _]|[_ ->]]; [destruct (N a eq_refl)|auto].
Qed.
Lemma toks_all : forall d links l x st st', reach_fx (xd_fmt d) -> Forall w16 (xd_xfs d) -> inv d false st -> matches x st -> typed_cell x -> dim_first l false ->
  sheet_toks d links l st = Ok st' ->
  let ws := xsays (xd_strings d) (xd_xfs d) (fun k => sfind k links) l x (xp_fno st) in
  let y := fold_left remember l x in
  Forall good_write ws /\ exists s0, run_writes s0 ws = Ok (xp_sheet st') /\
  (s0 = empty_sheet (xd_fmt d) /\ cx_row y = cx_row x /\ cx_col y = cx_col x \/ s0 = resize (empty_sheet (xd_fmt d)) (cx_row y) (cx_col y)).
Proof.
  intros d links. induction l as [|t l IH]; intros x st st' HX HW I M TC D H; cbv zeta.
  { cbn [sheet_toks xsays fold_left] in *. injection H as <-. split; [constructor|]. exists (xp_sheet st). split; [reflexivity|]. left. split; [apply I; reflexivity|auto]. }
  destruct (next_seen false t) eqn:NS.
  - destruct (dim_next _ _ _ D) as [_ D2]. rewrite NS in D2. pose proof (dims_over _ D2) as ND. destruct (match t with XStart n _ => str_eqb n (bs "dimension") | _ => false end) eqn:ED.
    + destruct t as [n a|n|v|]; try discriminate. apply str_eqb_eq in ED. subst n. cbn [sheet_toks sheet_tok] in H. change (str_eqb (bs "dimension") (bs "dimension")) with true in H. cbn iota in H. destruct (sheet_dimension st a) as [st1| | |] eqn:SD; cbn [bind] in H; try discriminate.
      destruct (dimension_step d x st a HX I M) as [[_ Q]|[_ (st2 & E2 & I2 & M2)]]; [congruence|]. assert (st2 = st1) by congruence. subst st2.
      destruct (toks_run d links l _ st1 st' HX HW I2 M2 (typed_next _ _ TC) ND H) as (R & G). cbn [xsays fold_left]. destruct (no_dim_size l (remember x (XStart (bs "dimension") a)) ND) as [-> ->].
      assert (DS : xp_fno st1 = xp_fno st /\ xp_sheet st1 = resize (empty_sheet (xd_fmt d)) (xp_maxrow st1) (xp_maxcol st1)).
      { clear - SD I. destruct I as (_ & _ & B). destruct (B eq_refl) as [ES _]. unfold sheet_dimension in SD. rewrite ES in SD. destruct (str_eqb _ _); [injection SD as <-; auto|]. destruct (if _ =? _ then _ else _) as [[c r]| | |]; cbn [bind] in SD; try discriminate. injection SD as <-. auto. }
      destruct DS as [DF DS]. rewrite DF in R, G. destruct M2 as (_ & _ & M3 & M4). change (tok_says _ _ x (xp_fno st) (XStart (bs "dimension") a)) with (@nil gop). change (format_after _ (xp_fno st) (XStart (bs "dimension") a)) with (xp_fno st). cbn [app]. split; [exact G|].
      exists (xp_sheet st1). split; [exact R|]. right. rewrite <- M3, <- M4. exact DS.
    + assert (NDT : no_dim t) by (intros a ->; discriminate ED). pose proof (Forall_cons t NDT ND) as NA. assert (I2 : inv d true st) by (destruct I as (R & F & _); repeat split; auto; try discriminate; apply F). destruct (toks_run d links (t :: l) x st st' HX HW I2 M TC NA H) as (R & G).
      split; [exact G|]. exists (xp_sheet st). split; [exact R|]. left. split; [apply I; reflexivity|]. apply no_dim_size. exact NA.
  - destruct (dim_next _ _ _ D) as [D1 D2]. rewrite NS in D2. cbn [sheet_toks] in H. destruct (step_cases d links x st t false HX HW I M D1) as [[_ Q]|[_ (st1 & E & I1 & M1)]]; [rewrite Q in H; discriminate|]. rewrite E in H. cbn [bind] in H. rewrite NS in I1.
    assert (NDT : forall a, t <> XStart (bs "dimension") a) by (intros a ->; discriminate NS). destruct (tok_run d links x st t st1 false HX HW I M TC NDT E) as (_ & _ & F1).
    assert (T0 : tok_says (xd_strings d) (fun k => sfind k links) x (xp_fno st) t = []).
    { destruct I as (_ & _ & B). destruct (B eq_refl) as [_ EC]. destruct M as (MR & _). rewrite EC in MR. destruct t as [n a|n|v|]; cbn [tok_says next_seen existsb orb] in *; auto; [|rewrite <- MR; reflexivity].
      destruct (str_eqb n (bs "mergeCell")); [rewrite !orb_true_r in NS; discriminate|]. destruct (str_eqb n (bs "hyperlink")); [rewrite !orb_true_r in NS; discriminate|reflexivity]. }
    destruct (IH (remember x t) st1 st' HX HW I1 M1 (typed_next _ _ TC) D2 H) as (G & s0 & R & Z0). cbn [xsays fold_left]. rewrite T0. cbn [app]. rewrite F1 in G, R. split; [exact G|]. exists s0. split; [exact R|]. 
    destruct (no_dim_size [t] x ltac:(constructor; [exact NDT|constructor])) as [S1 S2]. cbn [fold_left] in S1, S2. rewrite S1, S2 in Z0. exact Z0.
Qed.
Lemma display_max : forall x ws rows cols s, displays x ws (Z.max 1 rows) (Z.max 1 cols) s -> displays x ws rows cols s.
Proof.
  intros x ws rows cols s (A & B & g & C & D & E & F). rewrite !Z.max_assoc in *. change (Z.max 1 1) with 1 in *. split; [exact A|]. split; [exact B|]. exists g. split; [exact C|]. split; [exact D|]. split; [|destruct F as [F|F]; [lia|auto]].
  intros r c [H|H]; [apply E; auto|]. apply E. right. lia.
Qed.
Lemma resize_max : forall x r c, resize (empty_sheet x) r c = resize (empty_sheet x) (Z.max 1 r) (Z.max 1 c).
Proof.
  intros. Local Transparent resize. unfold resize. cbn [empty_sheet sh_rows sh_fx widen_rows]. replace (if Z.max 1 r <=? 0 then 1 else Z.max 1 r) with (if r <=? 0 then 1 else r) by (destruct (Z.leb_spec r 0), (Z.leb_spec (Z.max 1 r) 0); lia). replace (if Z.max 1 c <=? 0 then 1 else Z.max 1 c) with (if c <=? 0 then 1 else c) by (destruct (Z.leb_spec c 0), (Z.leb_spec (Z.max 1 c) 0); lia). reflexivity.
Qed.
Local Opaque resize.

(** ** C105 *)
(** A sheet read from a part of any package shows what the tokens of that part say: the last of
    them about a cell decides it, a cell none is about is empty, and the grid is as large as the
    dimension element and the cells need.  The dimension element, if any, is the first to count. *)
Theorem C105_sheet : forall d docname toks e s err, reach_fx (xd_fmt d) -> Forall w16 (xd_xfs d) -> open_xml (xd_zip d) docname = inl (mkXml toks e) -> dim_first toks false ->
  parse_xsheet d docname = Ok (s, err) ->
  displays (xd_fmt d) (xsheet_says (xd_strings d) (xd_xfs d) (fun k => sfind k (sheet_links (xd_zip d) docname)) toks) (fst (xdeclared toks)) (snd (xdeclared toks)) s /\ err = end_err e.
Proof.
  intros d docname toks e s err HX HW E D H. unfold parse_xsheet in H. rewrite E in H. cbn [xm_toks xm_end] in H. destruct (sheet_toks _ _ _ _) as [st| | |] eqn:ST; cbn [bind] in H; try discriminate. injection H as <- <-. split; [|reflexivity].
  assert (I : inv d false (xps0 (xd_fmt d))) by (split; [apply rs_new; exact HX|split; [cbn; lia|auto]]). assert (M : matches ctx0 (xps0 (xd_fmt d))) by (repeat split).
  destruct (toks_all d _ toks ctx0 _ st HX HW I M ltac:(intros Q; exfalso; apply Q; reflexivity) D ST) as (G & s0 & R & Z0). cbn [xps0 xp_fno] in G, R. unfold xsheet_says, xdeclared, context. cbn [fst snd].
  destruct Z0 as [(-> & -> & ->)|Z0].
  - cbn [ctx0 cx_row cx_col]. destruct (writes_display0 (xd_fmt d) _ HX G) as (s1 & R1 & S1). assert (s1 = xp_sheet st) by congruence. subst s1. exact S1.
  - subst s0. rewrite resize_max in R. apply display_max. edestruct (writes_display (xd_fmt d) _ (Z.max 1 (cx_row (fold_left remember toks ctx0))) (Z.max 1 (cx_col (fold_left remember toks ctx0))) HX G) as (s1 & R1 & S1); [lia|lia|]. rewrite R in R1. injection R1 as <-. exact S1.
Qed.

(** * L_xlsx: worksheets. *)
From Verif Require Import GoBase L_base GoFloat GoUnicode GoTime M_grate M_value M_dates M_fmt M_formats M_cell M_sheet M_xls M_xlsx S_cell S_sheet L_sheet S_grid L_grid S_xls L_xls S_xlsx L_xlsxref.
From Coq Require Import Lia ZifyBool ZifyNat.

(** ** attributes *)
Lemma existsb_key : forall (a : list xattr) k, existsb (fun p => str_eqb (fst p) k) a = true <-> In k (map fst a).
Proof.
  intros. rewrite existsb_exists, in_map_iff. split; intros (x & H); exists x.
  - destruct H as [I E]. apply str_eqb_eq in E. auto.
  - destruct H as [E I]. split; [exact I|]. apply str_eqb_eq. exact E.
Qed.
Lemma existsb_nokey : forall (a : list xattr) k, ~ In k (map fst a) -> existsb (fun p => str_eqb (fst p) k) a = false.
Proof. intros. destruct (existsb _ a) eqn:E; [|reflexivity]. apply existsb_key in E. contradiction. Qed.
Lemma get_no : forall a key, no_attr a key -> get_attr a (bs key) = [].
Proof.
  unfold no_attr. induction a as [|[k v] a IH]; intros key H; [reflexivity|]. cbn [map fst In] in H. cbn [get_attr].
  rewrite existsb_nokey by intuition. destruct (str_eqb k (bs key)) eqn:E; [|reflexivity]. apply str_eqb_eq in E. intuition.
Qed.
Lemma get_has : forall a key v, has_attr a key v -> get_attr a (bs key) = v.
Proof.
  intros a key v (x & y & -> & Nx & Ny). induction x as [|[k w] x IH]; cbn [app get_attr].
  - rewrite existsb_nokey by exact Ny. rewrite str_eqb_refl. reflexivity.
  - cbn [map fst In] in Nx. replace (existsb (fun p => str_eqb (fst p) (bs key)) (x ++ (bs key, v) :: y)) with true; [apply IH; intuition|].
    symmetry. apply existsb_key. rewrite map_app. apply in_or_app. right. left. reflexivity.
Qed.
Lemma get_opt : forall a key v, opt_attr a key v -> get_attr a (bs key) = match v with Some v => v | None => [] end.
Proof. intros a key [v|] H; [apply get_has|apply get_no]; exact H. Qed.
Lemma map_no : forall a key, no_attr a key -> map_attr a (bs key) = None.
Proof.
  unfold no_attr. induction a as [|[k v] a IH]; intros key H; [reflexivity|]. cbn [map fst In] in H. cbn [map_attr].
  rewrite IH by intuition. destruct (str_eqb k (bs key)) eqn:E; [|reflexivity]. apply str_eqb_eq in E. intuition.
Qed.
Lemma map_has : forall a key v, has_attr a key v -> map_attr a (bs key) = Some v.
Proof.
  intros a key v (x & y & -> & Nx & Ny). induction x as [|[k w] x IH]; cbn [app map_attr].
  - rewrite (map_no y key Ny). rewrite str_eqb_refl. reflexivity.
  - cbn [map fst In] in Nx. rewrite IH by intuition. reflexivity.
Qed.
Lemma parse_utoa : forall n, 0 <= n < 2 ^ 63 -> parse_int 64 (utoa n) = (n, PNone).
Proof. intros n H. assert (E : utoa n = itoa n) by (unfold itoa; destruct (Z.ltb_spec n 0); [lia|reflexivity]). rewrite E. apply parse_int_itoa; [lia|change (2 ^ (64 - 1)) with (2 ^ 63); lia]. Qed.
Lemma int_attr_opt : forall a key v, opt_attr a key (option_map utoa v) -> (forall s, v = Some s -> 0 <= s < 2 ^ 63) -> int_attr 64 (get_attr a (bs key)) = match v with Some s => s | None => 0 end.
Proof. intros a key [s|] H B; cbn [option_map] in H; rewrite (get_opt _ _ _ H); unfold int_attr; [rewrite parse_utoa by auto; reflexivity|reflexivity]. Qed.

(** ** tokens *)
Lemma sheet_toks_app : forall d links a b st, sheet_toks d links (a ++ b) st = (st <- sheet_toks d links a st ;; sheet_toks d links b st).
Proof. induction a as [|t a IH]; intros; cbn [app sheet_toks bind]; [reflexivity|]. destruct (sheet_tok d links st t); cbn [bind]; auto. Qed.
Lemma not_name : forall n names key, ~ In n names -> In (bs key) names -> str_eqb n (bs key) = false.
Proof. intros n names key N I. apply str_eqb_neq. intros ->. contradiction. Qed.
Lemma silent_tok : forall d links st t, silent t -> sheet_tok d links st t = Ok st.
Proof.
  intros d links st [n a|n|t|] S; cbn [silent other] in S; [| |contradiction|reflexivity]; cbn [sheet_tok].
  - rewrite !(not_name n sheet_names) by (auto; vm_compute; intuition). reflexivity.
  - rewrite (not_name n sheet_names) by (auto; vm_compute; intuition). reflexivity.
Qed.
Lemma silent_toks : forall d links l st, Forall silent l -> sheet_toks d links l st = Ok st.
Proof. induction l as [|t l IH]; intros st F; [reflexivity|]. inversion F; subst. cbn [sheet_toks]. rewrite silent_tok by auto. cbn [bind]. auto. Qed.
Lemma other_tok : forall d links st t, xp_cell st = [] -> other sheet_names t -> sheet_tok d links st t = Ok st.
Proof. intros d links st t C O. destruct t as [n a|n|t|]; [apply silent_tok; exact O|apply silent_tok; exact O| |reflexivity]. cbn [sheet_tok]. unfold sheet_chars. rewrite C. reflexivity. Qed.
Lemma other_toks : forall d links l st, xp_cell st = [] -> Forall (other sheet_names) l -> sheet_toks d links l st = Ok st.
Proof. induction l as [|t l IH]; intros st C F; [reflexivity|]. inversion F; subst. cbn [sheet_toks]. rewrite other_tok by auto. cbn [bind]. auto. Qed.

(** ** cells *)
(** the value of a formula's text, put before the value *)
Definition early_value (v : xval) (t : bytes) : goval :=
  match v with VNumber _ => number_value t | VBool _ => GBool (match t with 49 :: _ => true | _ => false end) | _ => GStr t end.
Definition cell_writes (strs : list gostr) (xfs : list Z) (c : xcell) : list gop :=
  match xc_val c with
  | Some (_, v) => match xc_formula c with Some (_, t) => [(xc_row c, xc_col c, WPut (early_value v t) (style_format xfs (xc_style c)))] | None => [] end ++
                   [(xc_row c, xc_col c, WPut (xval_value strs v) (style_format xfs (xc_style c)))]
  | None => []
  end.
Definition all_writes (strs : list gostr) (xfs : list Z) (links : list (gostr * gostr)) (last : Z * Z) (i : xitem) : list gop :=
  match i with XiCell c => cell_writes strs xfs c | _ => xitem_writes strs xfs (fun k => sfind k links) last i end.

Definition type_name (v : xval) : gostr := match v with VNumber _ => bs "n" | VBool _ => bs "b" | VShared _ => bs "s" | VText ty _ => ty end.
Lemma type_attr_name : forall v a nstr, type_attr (Some v) a -> xval_ok nstr v -> (let t := get_attr a (bs "t") in if str_eqb t [] then bs "n" else t) = type_name v.
Proof.
  intros v a nstr T O. cbv zeta. destruct v as [t|b|i|ty t]; cbn [type_attr type_name xval_ok] in *.
  - destruct T as [T|T]; [rewrite get_no by auto|rewrite (get_has _ _ _ T)]; reflexivity.
  - rewrite (get_has _ _ _ T). reflexivity.
  - rewrite (get_has _ _ _ T). reflexivity.
  - rewrite (get_has _ _ _ T). destruct (str_eqb ty []) eqn:E; [|reflexivity]. apply str_eqb_eq in E. subst. vm_compute in O. intuition discriminate.
Qed.
Lemma text_type_value : forall strs ty t, In ty text_types -> cell_text_value strs ty t = Ok (Some (GStr t)).
Proof. intros strs ty t I. unfold text_types in I. cbn [map In] in I. destruct I as [<-|[<-|[<-|[<-|[]]]]]; reflexivity. Qed.
Lemma number_text : forall strs t, cell_text_value strs (bs "n") t = Ok (Some (number_value t)).
Proof. intros. unfold cell_text_value, number_value. change (str_eqb (bs "n") (bs "b")) with false. change (str_eqb (bs "n") (bs "n")) with true. cbn iota. destruct (parse_float t) as [f []]; reflexivity. Qed.
Lemma value_text : forall strs v, xval_ok (zlen strs) v -> cell_text_value strs (type_name v) (xval_text v) = Ok (Some (xval_value strs v)).
Proof.
  intros strs v O. destruct v as [t|b|i|ty t]; cbn [type_name xval_text xval_value xval_ok] in *.
  - apply number_text.
  - destruct b; reflexivity.
  - unfold cell_text_value. change (str_eqb (bs "s") (bs "b")) with false. change (str_eqb (bs "s") (bs "n")) with false. change (str_eqb (bs "s") (bs "s")) with true. cbn iota.
    rewrite parse_utoa by lia. cbn [fst]. rewrite (idx_ok _ strs i (nth (Z.to_nat i) strs [])); [reflexivity|lia|]. apply nth_error_nth'. unfold zlen in O. lia.
  - apply text_type_value. exact O.
Qed.
Lemma early_text : forall strs v t nstr, xval_ok nstr v -> (forall i, v <> VShared i) -> t <> [] -> cell_text_value strs (type_name v) t = Ok (Some (early_value v t)).
Proof.
  intros strs v t nstr O NS NE. destruct v as [t'|b|i|ty t']; cbn [type_name early_value xval_ok] in *.
  - apply number_text.
  - destruct t as [|x t]; [congruence|]. unfold cell_text_value. change (str_eqb (bs "b") (bs "b")) with true. cbn iota. rewrite idx_0. cbn [bind]. do 3 f_equal.
  - exfalso. eapply NS. reflexivity.
  - apply text_type_value. exact O.
Qed.
Lemma a1_ne : forall c r, coord_ok c -> a1 c r <> [].
Proof. intros c r H E. unfold a1 in E. apply app_eq_nil in E as [E _]. destruct (letters_ok c) as (_ & _ & N); [unfold coord_ok in H; lia|]. contradiction. Qed.
Lemma chars_put : forall d st v c r val, xp_cell st = a1 c r -> coord_ok c -> coord_ok r -> cell_text_value (xd_strings d) (xp_type st) v = Ok (Some val) ->
  sheet_chars d st v = (s <- put (xp_sheet st) r c val (xp_fno st) ;; Ok (with_sheet st s)).
Proof.
  intros d st v c r val C Hc Hr V. unfold sheet_chars. pose proof (a1_ne c r Hc) as NE. rewrite C. destruct (a1 c r) as [|x l] eqn:E; [congruence|]. rewrite <- E. rewrite ref_a1 by auto. cbn [bind]. rewrite V.
  unfold coord_ok in *. replace ((0 <=? c) && (0 <=? r)) with true by lia. reflexivity.
Qed.
Lemma cell_step : forall d links st c, xcell_ok (zlen (xd_strings d)) c -> xp_cell st = [] ->
  exists t f, sheet_toks d links (xcell_toks c) st = (s <- run_writes (xp_sheet st) (cell_writes (xd_strings d) (xd_xfs d) c) ;; Ok (mkXps t [] f (xp_maxcol st) (xp_maxrow st) s)).
Proof.
  intros d links st c (HR & IC & IR & HS & BS & HT & SP & SQ & HF & HV) C0. unfold xcell_toks.
  cbn [sheet_toks sheet_tok]. change (str_eqb (bs "c") (bs "dimension")) with false. change (str_eqb (bs "c") (bs "c")) with true. cbn iota.
  unfold sheet_c. rewrite (int_attr_opt _ _ _ HS BS). rewrite (get_has _ _ _ HR).
  set (sid := match xc_style c with Some s => s | None => 0 end).
  assert (FN : (if sid <? zlen (xd_xfs d) then idx (xd_xfs d) sid else Ok 0) = Ok (style_format (xd_xfs d) (xc_style c))).
  { assert (S0 : 0 <= sid) by (unfold sid; destruct (xc_style c); [apply BS; reflexivity|lia]). assert (E : style_format (xd_xfs d) (xc_style c) = nth (Z.to_nat sid) (xd_xfs d) 0) by (unfold sid, style_format; destruct (xc_style c); reflexivity).
    rewrite E. destruct (Z.ltb_spec sid (zlen (xd_xfs d))).
    - apply idx_ok; [lia|]. apply nth_error_nth'. unfold zlen in *. lia.
    - rewrite nth_overflow by (unfold zlen in *; lia). reflexivity. }
  rewrite FN. cbn [bind]. set (fno := style_format (xd_xfs d) (xc_style c)).
  rewrite sheet_toks_app, silent_toks by exact SP. cbn [bind]. unfold cell_writes. fold fno.
  destruct (xc_val c) as [[op v]|] eqn:EV.
  - destruct (HV op v eq_refl) as [SO VO]. cbn [option_map snd] in HT. pose proof (type_attr_name v _ _ HT VO) as TN. cbv zeta in TN. rewrite TN.
    exists (type_name v), fno.
    assert (VAL : forall s, sheet_toks d links ((op ++ [XChars (xval_text v)]) ++ xc_post c ++ [XEnd (bs "c")]) (mkXps (type_name v) (a1 (xc_col c) (xc_row c)) fno (xp_maxcol st) (xp_maxrow st) s) =
      (s <- put s (xc_row c) (xc_col c) (xval_value (xd_strings d) v) fno ;; Ok (mkXps (type_name v) [] fno (xp_maxcol st) (xp_maxrow st) s))).
    { intros s. rewrite !sheet_toks_app, silent_toks by exact SO. cbn [bind sheet_toks sheet_tok].
      rewrite (chars_put d _ (xval_text v) (xc_col c) (xc_row c) (xval_value (xd_strings d) v)); [|reflexivity|auto|auto|apply value_text; exact VO]. cbn [xp_sheet xp_fno].
      destruct (put s _ _ _ fno) as [s1|e| |]; cbn [bind]; auto. rewrite sheet_toks_app, silent_toks by exact SQ. cbn [bind sheet_toks sheet_tok with_sheet]. reflexivity. }
    destruct (xc_formula c) as [[fa ft]|] eqn:EF.
    + destruct (HF fa ft eq_refl) as (FNE & op' & v' & E & NS). injection E as <- <-. cbn [f_toks app sheet_toks]. rewrite silent_tok by (vm_compute; intuition discriminate). cbn [bind sheet_tok].
      rewrite (chars_put d _ ft (xc_col c) (xc_row c) (early_value v ft)); [|reflexivity|auto|auto|eapply early_text; eauto]. cbn [xp_sheet xp_fno run_writes run_write].
      destruct (put (xp_sheet st) _ _ _ fno) as [s1|e| |]; cbn [bind]; auto. unfold with_sheet. cbn [xp_type xp_cell xp_fno xp_maxcol xp_maxrow].
      change (str_eqb (bs "f") (bs "c")) with false. cbn iota. rewrite VAL. destruct (put s1 _ _ _ fno); reflexivity.
    + cbn [f_toks app sheet_toks bind]. cbn [app run_writes run_write].
      rewrite VAL. destruct (put (xp_sheet st) _ _ _ fno); reflexivity.
  - destruct (xc_formula c) as [[fa ft]|] eqn:EF; [destruct (HF fa ft eq_refl) as (_ & op & v & E & _); discriminate|].
    do 2 eexists. cbn [f_toks app]. rewrite sheet_toks_app, silent_toks by exact SQ. cbn [bind sheet_toks sheet_tok run_writes]. change (str_eqb (bs "c") (bs "c")) with true. cbn iota. cbn [xp_type xp_cell xp_fno xp_maxcol xp_maxrow xp_sheet]. reflexivity.
Qed.

(** ** items *)
Lemma merge_region : forall r0 c0 r1 c1, merge_writes r0 c0 r1 c1 = region_writes r0 r1 c0 c1 None.
Proof. reflexivity. Qed.
Lemma item_step : forall d links st i, xitem_ok (zlen (xd_strings d)) i -> xp_cell st = [] ->
  exists t f, sheet_toks d links (xitem_toks i) st =
    (s <- run_writes (xp_sheet st) (all_writes (xd_strings d) (xd_xfs d) links (xp_maxcol st, xp_maxrow st) i) ;; Ok (mkXps t [] f (xp_maxcol st) (xp_maxrow st) s)).
Proof.
  intros d links st i O C0. destruct i as [c|a c0 r0 c1 r1|a c r id|t]; cbn [xitem_ok xitem_toks all_writes xitem_writes] in *.
  - apply cell_step; auto.
  - destruct O as (H & I1 & I2 & I3 & I4). exists (xp_type st), (xp_fno st). cbn [sheet_toks sheet_tok].
    change (str_eqb (bs "mergeCell") (bs "dimension")) with false. change (str_eqb (bs "mergeCell") (bs "c")) with false. change (str_eqb (bs "mergeCell") (bs "mergeCell")) with true. cbn iota.
    unfold sheet_merge. rewrite (get_has _ _ _ H), split_range by auto. rewrite idx_0. cbn [bind]. rewrite ref_a1 by auto. cbn [bind].
    change (1 <? zlen [a1 c0 r0; a1 c1 r1]) with true. cbn iota. change (idx [a1 c0 r0; a1 c1 r1] 1) with (Ok (a1 c1 r1)). cbn [bind]. rewrite ref_a1 by auto. cbn [bind].
    rewrite put_all_writes, merge_region, region_writes_ok. cbn [fst snd].
    replace (if xp_maxrow st <? r1 then xp_maxrow st else r1) with (Z.min r1 (xp_maxrow st)) by (destruct (Z.ltb_spec (xp_maxrow st) r1); lia).
    replace (if xp_maxcol st <? c1 then xp_maxcol st else c1) with (Z.min c1 (xp_maxcol st)) by (destruct (Z.ltb_spec (xp_maxcol st) c1); lia).
    destruct (run_writes (xp_sheet st) _) as [s|e| |]; cbn [bind]; auto. unfold with_sheet. rewrite C0. reflexivity.
  - destruct O as (H & I1 & I2 & HI). exists (xp_type st), (xp_fno st). cbn [sheet_toks sheet_tok].
    change (str_eqb (bs "hyperlink") (bs "dimension")) with false. change (str_eqb (bs "hyperlink") (bs "c")) with false. change (str_eqb (bs "hyperlink") (bs "mergeCell")) with false. change (str_eqb (bs "hyperlink") (bs "hyperlink")) with true. cbn iota.
    unfold sheet_link. rewrite (get_has _ _ _ H), ref_a1 by auto. cbn [bind]. rewrite (get_opt _ _ _ HI). cbn [run_writes run_write].
    set (link := match sfind _ links with Some l => l | None => [] end).
    destruct (put (xp_sheet st) r c (GStr link) 0) as [s|e| |]; cbn [bind]; auto. destruct (set_url s r c link) as [s2|e| |]; cbn [bind]; auto.
    unfold with_sheet. rewrite C0. reflexivity.
  - exists (xp_type st), (xp_fno st). cbn [sheet_toks]. rewrite other_tok by auto. cbn [bind run_writes]. destruct st; cbn in *. subst. reflexivity.
Qed.
Lemma items_steps : forall d links l st, Forall (xitem_ok (zlen (xd_strings d))) l -> xp_cell st = [] ->
  exists t f, sheet_toks d links (flat_map xitem_toks l) st =
    (s <- run_writes (xp_sheet st) (flat_map (all_writes (xd_strings d) (xd_xfs d) links (xp_maxcol st, xp_maxrow st)) l) ;; Ok (mkXps t [] f (xp_maxcol st) (xp_maxrow st) s)).
Proof.
  induction l as [|i l IH]; intros st F C0.
  - exists (xp_type st), (xp_fno st). cbn. destruct st; cbn in *. subst. reflexivity.
  - inversion F as [|? ? Fi Fl]; subst. destruct (item_step d links st i Fi C0) as (t & f & E).
    cbn [flat_map]. rewrite sheet_toks_app, E, run_writes_app.
    destruct (run_writes (xp_sheet st) (all_writes _ _ _ _ i)) as [s|e| |]; cbn [bind]; [|exists t, f; reflexivity|exists t, f; reflexivity|exists t, f; reflexivity].
    destruct (IH (mkXps t [] f (xp_maxcol st) (xp_maxrow st) s) Fl eq_refl) as (t2 & f2 & E2). exists t2, f2. exact E2.
Qed.

(** ** the writes that count *)
Definition same_writes (a b : list gop) : Prop :=
  (forall r c, last_write a r c = last_write b r c) /\ (forall n, extent n (map wrow a) = extent n (map wrow b)) /\ (forall n, extent n (map wcol a) = extent n (map wcol b)) /\ (a = [] <-> b = []).
Lemma same_refl : forall a, same_writes a a.
Proof. intros. repeat split; auto. Qed.
Lemma extent_app : forall a b n, extent n (a ++ b) = extent (extent n b) a.
Proof. intros. unfold extent. apply fold_right_app. Qed.
Lemma same_app : forall a b a' b', same_writes a a' -> same_writes b b' -> same_writes (a ++ b) (a' ++ b').
Proof.
  intros a b a' b' (L1 & R1 & C1 & N1) (L2 & R2 & C2 & N2). split; [|split; [|split]].
  - intros. rewrite !last_write_app, L1, L2. reflexivity.
  - intros. rewrite !map_app, !extent_app, R1, R2. reflexivity.
  - intros. rewrite !map_app, !extent_app, C1, C2. reflexivity.
  - split; intros E; apply app_eq_nil in E as [E1 E2]; apply N1 in E1; apply N2 in E2; subst; reflexivity.
Qed.
Lemma displays_same : forall x a b rows cols s, same_writes a b -> displays x a rows cols s -> displays x b rows cols s.
Proof.
  intros x a b rows cols s (L & R & C & N) (FX & IE & grid & D & V & P & X). split; [exact FX|]. split; [unfold wrow, wcol in *; rewrite IE, (R (Z.max 1 rows)), (C (Z.max 1 cols)); reflexivity|]. exists grid. split; [exact D|]. split; [|split].
  - intros. rewrite <- L. eapply V; eauto.
  - intros r c H. apply P. rewrite L. exact H.
  - destruct X as [(E & X)|[X1 X2]]; [left; split; [apply N; exact E|exact X]|]. right. specialize (R (Z.max 1 rows)). specialize (C (Z.max 1 cols)). unfold wrow in R. unfold wcol in C. first [rewrite <- R|rewrite R in X1]; first [rewrite <- C|rewrite C in X2]; auto.
Qed.
Lemma cell_same : forall strs xfs links last i, same_writes (all_writes strs xfs links last i) (xitem_writes strs xfs (fun k => sfind k links) last i).
Proof.
  intros strs xfs links last i. destruct i as [c| | |]; try apply same_refl. cbn [all_writes xitem_writes]. unfold cell_writes. destruct (xc_val c) as [[op v]|]; [|apply same_refl].
  destruct (xc_formula c) as [[fa ft]|]; [|apply same_refl]. cbn [app]. split; [|split; [|split]].
  - intros. cbn [last_write]. destruct ((xc_row c =? r) && (xc_col c =? c0)); reflexivity.
  - intros. cbn [map extent fold_right]. unfold wrow. cbn [fst snd]. lia.
  - intros. cbn [map extent fold_right]. unfold wcol. cbn [fst snd]. lia.
  - split; discriminate.
Qed.
Lemma cells_same : forall strs xfs links last l, same_writes (flat_map (all_writes strs xfs links last) l) (flat_map (xitem_writes strs xfs (fun k => sfind k links) last) l).
Proof. induction l as [|i l IH]; cbn [flat_map]; [apply same_refl|]. apply same_app; [apply cell_same|exact IH]. Qed.

Lemma good_number : forall t, good_value (number_value t).
Proof. intros. unfold number_value. destruct (parse_float t) as [f []]; [apply good_f64|apply good_str|apply good_str]. Qed.
Lemma good_style : forall xfs s, Forall w16 xfs -> 0 <= style_format xfs s < 65536.
Proof.
  intros xfs s F. assert (G : forall n, 0 <= nth n xfs 0 < 65536).
  { intros n. destruct (nth_in_or_default n xfs 0) as [I|E]; [rewrite Forall_forall in F; apply F in I; unfold w16 in I; lia|lia]. }
  destruct s; apply G.
Qed.
Lemma good_item : forall strs xfs links last i nstr, Forall w16 xfs -> xitem_ok nstr i -> Forall good_write (all_writes strs xfs links last i).
Proof.
  intros strs xfs links last i nstr FX O. destruct i as [c|a c0 r0 c1 r1|a c r id|t]; cbn [all_writes xitem_writes xitem_ok] in *; unfold coord_ok in *.
  - destruct O as (_ & IC & IR & _). unfold coord_ok in *. unfold cell_writes. pose proof (good_style xfs (xc_style c) FX).
    destruct (xc_val c) as [[op v]|]; [|constructor]. apply Forall_app. split.
    + destruct (xc_formula c) as [[fa ft]|]; [|constructor]. constructor; [|constructor]. apply good1; try lia. destruct v; cbn [early_value]; [apply good_number|apply good_bool|apply good_str|apply good_str].
    + constructor; [|constructor]. apply good1; try lia. destruct v; cbn [xval_value]; [apply good_number|apply good_bool|apply good_str|apply good_str].
  - apply good_region; [cbn; lia|cbn; lia|constructor].
  - constructor; [|constructor]. split; [cbn; lia|]. split; [cbn; lia|]. exact I.
  - constructor.
Qed.

Lemma dim_step : forall d links x dim, xdim_ok dim ->
  exists s, sheet_toks d links (xdim_toks dim) (xps0 x) = Ok (mkXps [] [] 0 (fst (xdim_last dim)) (snd (xdim_last dim)) s) /\
    s = match dim with DimNone => empty_sheet x | _ => resize (empty_sheet x) (snd (xdim_last dim)) (fst (xdim_last dim)) end.
Proof.
  intros d links x dim O. destruct dim as [|a c r|a c0 r0 c1 r1]; cbn [xdim_ok xdim_toks] in *; [eexists; split; reflexivity| |];
    cbn [sheet_toks sheet_tok]; change (str_eqb (bs "dimension") (bs "dimension")) with true; cbn iota; unfold sheet_dimension.
  - destruct O as (H & I1 & I2). rewrite (get_has _ _ _ H). destruct (str_eqb (a1 c r) (bs "A1")) eqn:E.
    + apply str_eqb_eq in E. unfold coord_ok in *. apply a1_A1 in E as [-> ->]; [|lia|lia]. cbn [bind xps0 xp_type xp_cell xp_fno xp_sheet sheet_toks sheet_tok]. eexists. split; reflexivity.
    + assert (S1 : split_byte 58 (a1 c r) = [a1 c r]) by (apply L_simple.split_byte_none, a1_no_colon; unfold coord_ok in *; lia). rewrite S1. change (zlen [a1 c r] =? 1) with true. cbn iota. rewrite idx_0. cbn [bind]. rewrite ref_a1 by auto.
      cbn [bind xps0 xp_type xp_cell xp_fno xp_sheet sheet_toks sheet_tok].
      assert (L : xdim_last (DimRef a c r) = (c, r)).
      { cbn [xdim_last]. destruct c; [destruct r|..]; try reflexivity. vm_compute in E. discriminate. }
      rewrite L. cbn [fst snd]. eexists. split; reflexivity.
  - destruct O as (H & I1 & I2 & I3 & I4). rewrite (get_has _ _ _ H). destruct (str_eqb (a1_range c0 r0 c1 r1) (bs "A1")) eqn:E.
    { apply str_eqb_eq in E. exfalso. assert (In 58 (a1_range c0 r0 c1 r1)) as I by (unfold a1_range; apply in_or_app; right; left; reflexivity). rewrite E in I. vm_compute in I. intuition discriminate. }
    rewrite split_range by auto. change (zlen [a1 c0 r0; a1 c1 r1] =? 1) with false. cbn iota. change (idx [a1 c0 r0; a1 c1 r1] 1) with (Ok (a1 c1 r1)). cbn [bind]. rewrite ref_a1 by auto.
    cbn [bind xps0 xp_type xp_cell xp_fno xp_sheet sheet_toks sheet_tok]. eexists. split; reflexivity.
Qed.

Lemma put_fx : forall s r c v f s', put s r c v f = Ok s' -> sh_fx s' = sh_fx s.
Proof.
  intros s r c v f s' E. unfold put in E. assert (G : sh_fx (grow_for s r c) = sh_fx s) by (unfold grow_for; repeat destruct (_ <=? _); cbn [orb]; repeat (destruct (_ || _)); try reflexivity; unfold resize; reflexivity).
  destruct (make_put_cell _ _ _); try discriminate. cbn [bind] in E. unfold put_cell in E. destruct (idx _ r); try discriminate. cbn [bind] in E. destruct (set_idx _ c _); try discriminate. cbn [bind] in E. destruct (set_idx _ r _); try discriminate. cbn [bind] in E. injection E as <-. exact G.
Qed.
Lemma set_url_fx : forall s r c l s', set_url s r c l = Ok s' -> sh_fx s' = sh_fx s.
Proof.
  intros s r c l s' E. unfold set_url in E. destruct (_ || _); [injection E as <-; reflexivity|]. destruct (get_cell s r c); try discriminate. cbn [bind] in E. destruct (cell_set_url _ l); try discriminate. cbn [bind] in E. unfold put_cell in E. destruct (idx _ r); try discriminate. cbn [bind] in E. destruct (set_idx _ c _); try discriminate. cbn [bind] in E. destruct (set_idx _ r _); try discriminate. cbn [bind] in E. injection E as <-. reflexivity.
Qed.
Lemma set_value_fx : forall s r c v s', set_value s r c v = Ok s' -> sh_fx s' = sh_fx s.
Proof.
  intros s r c v s' E. unfold set_value in E. destruct (_ || _); [injection E as <-; reflexivity|]. destruct (get_cell s r c); try discriminate. cbn [bind] in E. destruct (set_idx _ 0 _); try discriminate. cbn [bind] in E. destruct (set_idx _ 1 _); try discriminate. cbn [bind] in E. unfold put_cell in E. destruct (idx _ r); try discriminate. cbn [bind] in E. destruct (set_idx _ c _); try discriminate. cbn [bind] in E. destruct (set_idx _ r _); try discriminate. cbn [bind] in E. injection E as <-. reflexivity.
Qed.
Lemma run_write_fx : forall s o s', run_write s o = Ok s' -> sh_fx s' = sh_fx s.
Proof.
  intros s [[r c] w] s' E. destruct w as [v f|t f|t]; cbn [run_write] in E.
  - eapply put_fx. exact E.
  - destruct (put s r c (GStr []) f) as [s1|e| |] eqn:E1; try discriminate. cbn [bind] in E. rewrite (set_value_fx _ _ _ _ _ E). eapply put_fx. exact E1.
  - destruct (put s r c (GStr t) 0) as [s1|e| |] eqn:E1; try discriminate. cbn [bind] in E. rewrite (set_url_fx _ _ _ _ _ E). eapply put_fx. exact E1.
Qed.
(** a sheet followed by more tokens *)
Lemma xsheet_prefix : forall d links w, reach_fx (xd_fmt d) -> Forall w16 (xd_xfs d) -> xw_ok (zlen (xd_strings d)) w ->
  exists t f s s0 ws, sheet_toks d links (xw_toks w) (xps0 (xd_fmt d)) = Ok (mkXps t [] f (fst (xdim_last (xw_dim w))) (snd (xdim_last (xw_dim w))) s) /\ run_writes s0 ws = Ok s /\ sh_fx s = xd_fmt d /\ Forall good_write ws /\ same_writes ws (xw_writes (xd_strings d) (xd_xfs d) (fun k => sfind k links) w) /\ (forall ws', Forall good_write ws' -> exists s', run_writes s ws' = Ok s' /\ displays (xd_fmt d) (ws ++ ws') (snd (xw_size w)) (fst (xw_size w)) s').
Proof.
  intros d links w HX HF (O1 & O2 & O3). unfold xw_toks.
  rewrite sheet_toks_app, other_toks by auto. cbn [bind]. rewrite sheet_toks_app.
  destruct (dim_step d links (xd_fmt d) (xw_dim w) O2) as (s0 & E0 & ES). rewrite E0. cbn [bind].
  destruct (items_steps d links (xw_items w) (mkXps [] [] 0 (fst (xdim_last (xw_dim w))) (snd (xdim_last (xw_dim w))) s0) O3 eq_refl) as (t & f & EI). rewrite EI. cbn [xp_sheet xp_maxcol xp_maxrow].
  replace (fst (xdim_last (xw_dim w)), snd (xdim_last (xw_dim w))) with (xdim_last (xw_dim w)) by (destruct (xdim_last (xw_dim w)); reflexivity).
  set (ws := flat_map (all_writes _ _ _ _) (xw_items w)).
  assert (G : Forall good_write ws).
  { apply Forall_forall. intros o Ho. apply in_flat_map in Ho. destruct Ho as (i & Hi & Ho). rewrite Forall_forall in O3. pose proof (good_item (xd_strings d) (xd_xfs d) links (xdim_last (xw_dim w)) i _ HF (O3 i Hi)) as F. rewrite Forall_forall in F. auto. }
  assert (RW : forall ws, Forall good_write ws -> exists s, run_writes s0 ws = Ok s /\ displays (xd_fmt d) ws (snd (xw_size w)) (fst (xw_size w)) s).
  { intros ws' G'. subst s0. unfold xw_size. assert (B : xw_dim w <> DimNone -> 0 <= fst (xdim_last (xw_dim w)) /\ 0 <= snd (xdim_last (xw_dim w))).
    { intros _. destruct (xw_dim w) as [|a c r|a c0 r0 c1 r1]; cbn [xdim_ok] in O2; unfold coord_ok in O2; [cbn; lia| |cbn; lia]. cbn [xdim_last]. destruct c, r; cbn; lia. }
    destruct (xw_dim w) as [|a c r|a c0 r0 c1 r1] eqn:ED; [apply writes_display0; auto| |]; (destruct B; [discriminate|]; apply writes_display; auto). }
  destruct (RW ws G) as (s & R & _). rewrite R. cbn [bind]. exists t, f, s, s0, ws. split; [reflexivity|]. split; [exact R|]. split.
  - assert (sh_fx s = sh_fx s0). { clear - R. revert s0 R. induction ws as [|o l IH]; intros s0 R; cbn [run_writes] in R; [injection R as <-; reflexivity|]. destruct (run_write s0 o) as [s1|e| |] eqn:E; try discriminate. cbn [bind] in R. rewrite (IH _ R). eapply run_write_fx. exact E. }
    rewrite H, ES. destruct (xw_dim w); reflexivity.
  - split; [exact G|]. split; [apply cells_same|]. intros ws' G'. destruct (RW (ws ++ ws')) as (s' & R' & D'); [apply Forall_app; auto|]. rewrite run_writes_app, R in R'. cbn [bind] in R'. exists s'. auto.
Qed.
Lemma xsheet_more : forall d docname w l e ws, reach_fx (xd_fmt d) -> Forall w16 (xd_xfs d) -> open_xml (xd_zip d) docname = inl (mkXml (xw_toks w ++ l) e) -> xw_ok (zlen (xd_strings d)) w -> Forall good_write ws ->
  (forall t f s, exists t' f', sheet_toks d (sheet_links (xd_zip d) docname) l (mkXps t [] f (fst (xdim_last (xw_dim w))) (snd (xdim_last (xw_dim w))) s) = (s' <- run_writes s ws ;; Ok (mkXps t' [] f' (fst (xdim_last (xw_dim w))) (snd (xdim_last (xw_dim w))) s'))) ->
  exists s, parse_xsheet d docname = Ok (s, end_err e) /\
    displays (xd_fmt d) (xw_writes (xd_strings d) (xd_xfs d) (fun k => sfind k (sheet_links (xd_zip d) docname)) w ++ ws) (snd (xw_size w)) (fst (xw_size w)) s.
Proof.
  intros d docname w l e ws HX HF E O G H. unfold parse_xsheet. rewrite E. cbn [xm_toks xm_end]. set (links := sheet_links (xd_zip d) docname) in *.
  destruct (xsheet_prefix d links w HX HF O) as (t & f & s & s0 & ws0 & E1 & _ & _ & _ & SW & D). rewrite sheet_toks_app, E1. cbn [bind]. destruct (H t f s) as (t' & f' & E2). rewrite E2.
  destruct (D ws G) as (s' & R & DI). rewrite R. cbn [bind xp_sheet]. exists s'. split; [reflexivity|]. eapply displays_same; [|exact DI]. apply same_app; [exact SW|apply same_refl].
Qed.
Lemma xsheet_ok : forall d docname w e, reach_fx (xd_fmt d) -> Forall w16 (xd_xfs d) -> open_xml (xd_zip d) docname = inl (mkXml (xw_toks w) e) -> xw_ok (zlen (xd_strings d)) w ->
  exists s, parse_xsheet d docname = Ok (s, end_err e) /\
    displays (xd_fmt d) (xw_writes (xd_strings d) (xd_xfs d) (fun k => sfind k (sheet_links (xd_zip d) docname)) w) (snd (xw_size w)) (fst (xw_size w)) s.
Proof.
  intros d docname w e HX HF E O. rewrite <- (app_nil_r (xw_toks w)) in E. destruct (xsheet_more d docname w [] e [] HX HF E O) as (s & P & D); [constructor| |].
  - intros t f s. exists t, f. reflexivity.
  - rewrite app_nil_r in D. eauto.
Qed.

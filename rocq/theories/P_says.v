(** * P_says: C104 — an XLS sheet shows what its own records say, whatever file they come from. *)
From Verif Require Import GoBase GoFloat GoUnicode L_base M_grate M_value M_fmt M_formats M_cell M_sheet M_biff M_hlink M_xlstr M_xls S_cell L_cell S_sheet L_sheet S_grid L_grid S_cfb L_cfb S_hlink S_xls L_xls S_biff L_biff S_xlstr P_xlstr S_robust L_total P_robust S_says.
From Coq Require Import Lia ZifyBool ZifyNat.
Local Opaque f_of_bits fdiv f_of_Z put set_value fx_add.

(** ** the state after a list of writes *)
Definition shows (x : formatter) (n0 m0 : Z) (acc : list gop) (s : sheet) : Prop :=
  wf s /\ sh_fx s = x /\ sh_cur s = 0 /\ (forall r c, cell_long (content s r c)) /\
  (forall r c, match last_write acc r c with Some w => wrote x w (content s r c) | None => content s r c = [] end) /\
  (forall r c, last_write acc r c <> None -> pos_ok s r c) /\
  sh_nrows s = extent n0 (map wrow acc) /\ sh_ncols s = extent m0 (map wcol acc) /\ Forall good_write acc.
Lemma extent_app : forall a b n, extent n (a ++ b) = extent (extent n b) a.
Proof. intros. unfold extent. apply fold_right_app. Qed.
Lemma extent_swap : forall a b n, extent (extent n a) b = extent (extent n b) a.
Proof.
  induction b as [|i b IH]; intros; [reflexivity|]. cbn [extent fold_right]. fold (extent (extent n a) b) (extent n b). rewrite IH. replace (Z.max (i + 1) (extent n b)) with (Z.max (extent n b) (i + 1)) by lia. rewrite extent_max. reflexivity.
Qed.
Lemma shows_run : forall x n0 m0 acc s ws s', reach_fx x -> shows x n0 m0 acc s -> Forall good_write ws -> run_writes s ws = Ok s' -> shows x n0 m0 (acc ++ ws) s'.
Proof.
  intros x n0 m0 acc s ws s' Hx (W & F & Cu & L & Co & Po & N1 & N2 & G) GW R.
  destruct (run_writes_ok x ws s Hx W F Cu L GW) as (s1 & R1 & W1 & F1 & C1 & L1 & Co1 & Po1 & M1 & M2). rewrite R in R1. injection R1 as <-.
  split; [exact W1|]. split; [exact F1|]. split; [exact C1|]. split; [exact L1|]. split; [|split; [|split; [|split]]].
  - intros r c. rewrite last_write_app. specialize (Co1 r c). destruct (last_write ws r c); [exact Co1|]. rewrite Co1. apply Co.
  - intros r c H. rewrite last_write_app in H. specialize (Po1 r c). destruct (last_write ws r c); [apply Po1; discriminate|]. specialize (Po r c H). unfold pos_ok in *. rewrite M1, M2. pose proof (extent_ge (map wrow ws) (sh_nrows s)). pose proof (extent_ge (map wcol ws) (sh_ncols s)). lia.
  - rewrite M1, N1, map_app, extent_app. apply extent_swap.
  - rewrite M2, N2, map_app, extent_app. apply extent_swap.
  - apply Forall_app. auto.
Qed.
Lemma extent_in : forall l i n, In i l -> i + 1 <= extent n l.
Proof. induction l as [|j l IH]; intros i n I; [contradiction|]. cbn [extent fold_right]. fold (extent n l). destruct I as [->|I]; [lia|]. specialize (IH i n I). lia. Qed.
Lemma last_in : forall l r c w, last_write l r c = Some w -> In (r, c, w) l.
Proof.
  induction l as [|[[r' c'] w'] l IH]; intros r c w E; [discriminate|]. cbn [last_write] in E. destruct (last_write l r c) as [x|] eqn:L.
  - injection E as ->. right. apply IH. exact L.
  - destruct (Z.eqb_spec r' r), (Z.eqb_spec c' c); cbn [andb] in E; try discriminate. injection E as ->. subst. left. reflexivity.
Qed.
(** the cell a write leaves: value, type, format *)
Lemma wrote_shape : forall x w cl, wrote x w cl -> match w with WLink _ => True | _ => exists v t, cl = v :: GCType t :: (if format_left w =? 0 then [] else [GInt KUint16 (format_left w)]) end.
Proof.
  intros x [v f|t f|t] cl H; cbn [wrote format_left] in *; [|subst cl; do 2 eexists; reflexivity|exact I].
  destruct H as [[M ->]|[M (v0 & t0 & v' & t' & _ & -> & _)]].
  - exists v, StaticCell. f_equal. f_equal. destruct M as [->|[->|[->| ->]]]; destruct (in_dec _ _ _) as [I|I]; try reflexivity; exfalso; apply I; cbn [In]; auto.
  - exists v', t'. cbn [app]. f_equal. f_equal. destruct v; try reflexivity. destruct (in_dec _ _ _) as [I|I]; [|reflexivity]. exfalso. apply M. unfold merge_mark. cbn [In] in I. destruct I as [<-|[<-|[<-|[<-|[]]]]]; auto.
Qed.
Definition no_link (o : gop) : Prop := match snd o with WLink _ => False | _ => True end.
Lemma format_left_ok : forall r c w, good_write (r, c, w) -> 0 <= format_left w < 65536.
Proof. intros r c [v f|t f|t] (_ & _ & G); cbn [snd format_left] in *; try lia. destruct v; try lia. destruct (in_dec _ _ _); lia. Qed.
Lemma shows_set : forall x n0 m0 acc s r c t s', shows x n0 m0 acc s -> Forall no_link acc -> set_value s r c (GStr t) = Ok s' ->
  shows x n0 m0 (acc ++ match last_write acc r c with Some w => [(r, c, WText t (format_left w))] | None => [] end) s'.
Proof.
  intros x n0 m0 acc s r c t s' SH NL R. pose proof SH as (W & F & Cu & L & Co & Po & N1 & N2 & G).
  destruct (set_value_cases s r c (GStr t) W L) as [[H E]|[(_ & _ & B1 & B2 & v0 & t0 & rest & s2 & Ec & P2 & E)|(_ & _ & _ & E)]]; rewrite R in E; [|injection E as <-|discriminate].
  - injection E as <-. destruct (last_write acc r c) eqn:LW; [|rewrite app_nil_r; exact SH]. destruct (Po r c) as [? ?]; [congruence|]. lia.
  - pose proof (Co r c) as C1. destruct (last_write acc r c) as [w|] eqn:LW; [|congruence]. pose proof (last_in _ _ _ _ LW) as I. rewrite Forall_forall in NL, G. pose proof (NL _ I) as NW. pose proof (G _ I) as GW. cbn in NW.
    destruct (put_cell_frame _ _ _ _ _ W P2) as (W2 & (D1 & D2 & D3 & F2 & S2) & Cx).
    assert (Er : rest = if format_left w =? 0 then [] else [GInt KUint16 (format_left w)]).
    { pose proof (wrote_shape _ _ _ C1) as WS. destruct w; try contradiction; destruct WS as (v9 & t9 & WS); rewrite Ec in WS; injection WS as _ _ ->; reflexivity. }
    split; [exact W2|]. split; [congruence|]. split; [congruence|]. split; [|split; [|split; [|split; [|split]]]].
    + intros r' c'. destruct (Z.eq_dec r' r); [destruct (Z.eq_dec c' c)|]; [subst; rewrite Cx; right; eauto|rewrite S2 by congruence; auto|rewrite S2 by congruence; auto].
    + intros r' c'. rewrite last_write_app. cbn [last_write]. destruct (Z.eqb_spec r r'), (Z.eqb_spec c c'); cbn [andb]; [subst r' c'; cbn [wrote]; rewrite Cx, Er; reflexivity|rewrite S2 by congruence; apply Co..].
    + intros r' c'. rewrite last_write_app. cbn [last_write]. unfold pos_ok in *. rewrite D1, D2. destruct (Z.eqb_spec r r'), (Z.eqb_spec c c'); cbn [andb]; [subst r' c'; intros _; apply Po; congruence|apply Po..].
    + rewrite D1, N1, map_app, extent_app. cbn [map extent fold_right]. change (wrow (r, c, _)) with r. pose proof (extent_in (map wrow acc) r n0 (in_map wrow _ _ I)). change (wrow (r, c, w)) with r in *. rewrite (Z.max_comm (r + 1)), extent_max. lia.
    + rewrite D2, N2, map_app, extent_app. cbn [map extent fold_right]. change (wcol (r, c, _)) with c. pose proof (extent_in (map wcol acc) c m0 (in_map wcol _ _ I)). change (wcol (r, c, w)) with c in *. rewrite (Z.max_comm (c + 1)), extent_max. lia.
    + apply Forall_app. split; [apply Forall_forall; exact G|]. constructor; [|constructor]. destruct GW as (A & B & _). split; [exact A|]. split; [exact B|]. cbn [snd]. apply (format_left_ok r c w). apply G. exact I.
Qed.

(** ** the bytes *)
Lemma le64_field : forall d a x, 0 <= a -> le64 (zdrop a d) = Ok x -> x = field d a 8 /\ a + 8 <= zlen d.
Proof.
  intros d a x Ha H. destruct (Z_le_gt_dec a (zlen d)) as [Q|Q]; [|rewrite zdrop_all in H by lia; discriminate]. pose proof (zlen_zdrop _ d a ltac:(lia)) as L. unfold field.
  destruct (zdrop a d) as [|b0 [|b1 [|b2 [|b3 [|b4 [|b5 [|b6 [|b7 l]]]]]]]]; try discriminate H. cbn [le64] in H. injection H as <-.
  change (ztake 8 (b0 :: b1 :: b2 :: b3 :: b4 :: b5 :: b6 :: b7 :: l)) with [b0; b1; b2; b3; b4; b5; b6; b7]. cbn [le_val]. unfold zlen in L |- *. cbn [List.length] in L. split; lia.
Qed.
Lemma byte_field : forall d a x, idx d a = Ok x -> x = field d a 1 /\ 0 <= a < zlen d.
Proof.
  intros d a x H. pose proof H as H1. apply idx_inv in H1. destruct H1 as [R N]. pose proof (zdrop_uncons _ _ _ _ H) as Z1. unfold field. rewrite Z1. change (ztake 1 (x :: zdrop (a + 1) d)) with [x]. cbn [le_val].
  assert (Z.to_nat a < List.length d)%nat by (apply nth_error_Some; congruence). unfold zlen. lia.
Qed.
Lemma field1_byte : forall d a, bytes_ok d -> 0 <= field d a 1 < 256.
Proof.
  intros d a B. unfold field. pose proof (bytes_ok_zdrop d a B) as Q. destruct (zdrop a d) as [|x l]; [change (ztake 1 (@nil Z)) with (@nil Z); cbn [le_val]; lia|]. change (ztake 1 (x :: l)) with [x]. cbn [le_val]. inversion Q; subst. lia.
Qed.
Lemma units_pairs : forall n raw us r, units_len n raw = Ok (us, r) -> us = pairs (ztake (2 * Z.of_nat n) (dat raw)).
Proof.
  induction n as [|n IH]; intros raw us r H; cbn [units_len] in H; [injection H as <- _; reflexivity|].
  destruct (dat raw) as [|x [|y l]] eqn:E; try discriminate H. cbn [le16 bind] in H. unfold sl_from, sl_len in H. rewrite E in H.
  assert (L : zlen (x :: y :: l) = 2 + zlen l) by (unfold zlen; cbn [List.length]; lia). pose proof (zlen_nonneg _ l). replace ((0 <=? 2) && (2 <=? zlen (x :: y :: l))) with true in H by lia. cbn [bind] in H.
  destruct (units_len n _) as [[us' r']| | |] eqn:U; try discriminate H. cbn [bind] in H. injection H as <- <-. apply IH in U. cbn [dat] in U. change (zdrop 2 (x :: y :: l)) with l in U. subst us'.
  replace (2 * Z.of_nat (S n)) with (Z.of_nat (S (S (2 * n)))) by lia. unfold ztake. rewrite Nat2Z.id. cbn [firstn pairs]. replace (Z.to_nat (2 * Z.of_nat n)) with (2 * n)%nat by lia. reflexivity.
Qed.

Lemma idx_field : forall d a, 0 <= a < zlen d -> idx d a = Ok (field d a 1).
Proof. intros d a H. destruct (idx_in _ d a H) as (x & E). rewrite E. f_equal. apply byte_field in E. tauto. Qed.
Lemma le64_ok : forall d a, 0 <= a -> a + 8 <= zlen d -> le64 (zdrop a d) = Ok (field d a 8).
Proof.
  intros d a Ha L. pose proof (zlen_zdrop _ d a ltac:(lia)) as Z. destruct (le64 (zdrop a d)) as [x| | |] eqn:E; [apply le64_field in E; [|lia]; destruct E as [-> _]; reflexivity|..];
    destruct (zdrop a d) as [|b0 [|b1 [|b2 [|b3 [|b4 [|b5 [|b6 [|b7 l]]]]]]]]; try discriminate E; unfold zlen in *; cbn [List.length] in Z; lia.
Qed.
Lemma from64_ok : forall d a, 0 <= a -> a + 8 <= zlen (dat d) -> from64 d a = Ok (field (dat d) a 8).
Proof. intros. unfold from64. rewrite from_val by lia. cbn [bind dat]. apply le64_ok; auto. Qed.
Lemma from64_short : forall d a, 0 <= a -> zlen (dat d) < a + 8 -> from64 d a = Panic.
Proof.
  intros d a Ha L. unfold from64, sl_from. destruct (_ && _) eqn:E; [|reflexivity]. cbn [bind dat]. destruct (le64 (zdrop a (dat d))) as [x| | |] eqn:Q; [apply le64_field in Q; lia|..]; [|reflexivity|];
    destruct (zdrop a (dat d)) as [|b0 [|b1 [|b2 [|b3 [|b4 [|b5 [|b6 [|b7 l]]]]]]]]; discriminate Q.
Qed.
(** a result that is not Ok *)
Definition bad {A} (r : res A) : Prop := forall x, r <> Ok x.
Lemma bad_panic : forall A, bad (@Panic A).
Proof. intros A x. discriminate. Qed.
Lemma bad_bind : forall A B (m : res A) (f : A -> res B), (forall x, m = Ok x -> bad (f x)) -> bad (bind m f).
Proof. intros A B [x|e| |] f H y E; cbn [bind] in E; try discriminate. exact (H x eq_refl y E). Qed.
Lemma bad_first : forall A B (m : res A) (f : A -> res B), bad m -> bad (bind m f).
Proof. intros. apply bad_bind. intros x E. exfalso. exact (H x E). Qed.

(** ** writes of each record *)
Lemma zrange_cons : forall a b, a <= b -> zrange a b = a :: zrange (a + 1) b.
Proof.
  intros a b H. unfold zrange. replace (Z.to_nat (b - a + 1)) with (S (Z.to_nat (b - (a + 1) + 1))) by lia. cbn [seq map]. rewrite Z.add_0_r. f_equal.
  rewrite <- seq_shift, map_map. apply map_ext. intros. lia.
Qed.
Lemma zrange_nil : forall a b, b < a -> zrange a b = [].
Proof. intros a b H. unfold zrange. replace (Z.to_nat (b - a + 1)) with 0%nat by lia. reflexivity. Qed.
Lemma in_zrange : forall a b x, In x (zrange a b) -> a <= x <= b.
Proof. intros a b x H. unfold zrange in H. apply in_map_iff in H. destruct H as (i & <- & I). apply in_seq in I. lia. Qed.
Lemma mul_says : forall w d row col n i s, bytes_ok (dat d) -> 0 <= i -> 4 + (i + Z.of_nat n) * 6 <= zlen (dat d) ->
  mul_rk w s d row col i n = run_writes s (map (fun i => (row, col + i, WPut (rk_value (field (dat d) (6 + 6 * i) 4)) (xf_format (wb_xfs w) (field (dat d) (4 + 6 * i) 2)))) (zrange i (i + Z.of_nat n - 1))).
Proof.
  intros w d row col n. induction n as [|n IH]; intros i s B I0 L; cbn [mul_rk]; [rewrite zrange_nil by lia; reflexivity|].
  rewrite zrange_cons by lia. cbn [map run_writes run_write]. replace (4 + i * 6) with (4 + 6 * i) by lia. replace (4 + 6 * i + 2) with (6 + 6 * i) by lia.
  rewrite from16_val by lia. cbn [bind]. rewrite from32_val by lia. cbn [bind]. rewrite rk_value_ok by (apply (w32_field (dat d)); auto; lia).
  rewrite xf_fmt_ok by (pose proof (w16_field (dat d) (4 + 6 * i) B ltac:(lia) ltac:(lia)) as Q; unfold w16 in Q; lia).
  destruct (put s row (col + i) _ _); cbn [bind]; auto. rewrite IH by (auto; lia). replace (i + 1 + Z.of_nat n - 1) with (i + Z.of_nat (S n) - 1) by lia. reflexivity.
Qed.
Lemma merge_says : forall mr mc n raw s, bytes_ok (dat raw) -> 8 * Z.of_nat n <= zlen (dat raw) ->
  merge_cells s raw mr mc n = run_writes s (flat_map (fun i => region_cells (clip mr mc (region_at (dat raw) (8 * i))) []) (zrange 0 (Z.of_nat n - 1))).
Proof.
  intros mr mc n. induction n as [|n IH]; intros raw s B L; cbn [merge_cells]; [rewrite zrange_nil by lia; reflexivity|].
  rewrite zrange_cons by lia. cbn [flat_map]. rewrite !field16_val by lia. cbn [bind]. rewrite from16_val by lia. cbn [bind]. rewrite from_val by lia. cbn [bind].
  rewrite run_writes_app, put_all_writes, region_writes_ok, clip_row, clip_col. unfold region_at at 1. cbn [clip]. change (8 * 0) with 0. change (0 + 2) with 2. change (0 + 4) with 4. change (0 + 6) with 6.
  destruct (run_writes s _) as [s1|e| |]; cbn [bind]; auto. rewrite IH; [|cbn [dat]; apply bytes_ok_zdrop; auto|cbn [dat]; rewrite zlen_zdrop; lia]. cbn [dat]. f_equal.
  replace (zrange (0 + 1) (Z.of_nat (S n) - 1)) with (map (fun i => i + 1) (zrange 0 (Z.of_nat n - 1))).
  - rewrite !flat_map_concat_map, map_map. f_equal. apply map_ext_in. intros i Hi. apply in_zrange in Hi. unfold region_at, field. rewrite !zdrop_zdrop by lia. replace (8 * (i + 1)) with (8 + 8 * i) by lia. rewrite !Z.add_assoc. reflexivity.
  - unfold zrange. rewrite map_map. replace (Z.of_nat (S n) - 1 - (0 + 1) + 1) with (Z.of_nat n - 1 - 0 + 1) by lia. apply map_ext. intros. lia.
Qed.
Lemma merge_short : forall mr mc n raw s, zlen (dat raw) < 8 * Z.of_nat n -> bad (merge_cells s raw mr mc n).
Proof.
  intros mr mc n. induction n as [|n IH]; intros raw s L; [pose proof (zlen_nonneg _ (dat raw)); lia|]. cbn [merge_cells].
  destruct (Z_lt_ge_dec (zlen (dat raw)) 8).
  - do 3 (apply bad_bind; intros ? _). apply bad_first. rewrite from16_short by lia. apply bad_panic.
  - do 4 (apply bad_bind; intros ? _). apply bad_bind. intros raw' E. apply bad_bind. intros s' _. apply IH. rewrite from_val in E by lia. injection E as <-. cbn [dat]. rewrite zlen_zdrop; lia.
Qed.
Lemma mul_short : forall w d row col n i s, 0 <= i -> (0 < n)%nat -> zlen (dat d) < 4 + (i + Z.of_nat n) * 6 -> bad (mul_rk w s d row col i n).
Proof.
  intros w d row col n. induction n as [|n IH]; intros i s I0 N L; [lia|]. cbn [mul_rk]. apply bad_bind. intros x1 _. apply bad_bind. intros x2 E2. apply bad_bind. intros s1 _.
  destruct n as [|n]; [|apply IH; lia]. exfalso. unfold from32 in E2. unfold sl_from, sl_len in E2. destruct (_ && _) eqn:C; [|discriminate]. cbn [bind dat] in E2.
  pose proof (zlen_zdrop _ (dat d) (4 + i * 6 + 2) ltac:(lia)) as Z. destruct (zdrop _ (dat d)) as [|? [|? [|? [|? ?]]]]; try discriminate E2. unfold zlen in *. cbn [List.length] in Z. lia.
Qed.

(** ** one record *)
(** the display text and the target of a hyperlink object; [decode_hyperlinks] is C54 and C85 *)
Definition link_of (p sp : bytes) : option gostr :=
  match decode_hyperlinks (mkSl p sp) with Ok (d, l) => Some (d ++ bs " <" ++ l ++ bs ">") | _ => None end.

Lemma ret_inv : forall (m : res sheet) st st', bind m (fun s => Ok (mkPst s (p_row st) (p_col st) (p_ucap st))) = Ok st' -> m = Ok (p_sheet st') /\ (p_row st', p_col st') = (p_row st, p_col st).
Proof. intros [s|e| |] st st' H; cbn [bind] in H; try discriminate. injection H as <-. auto. Qed.
Lemma one_write : forall s r c v f, run_writes s [(r, c, WPut v f)] = put s r c v f.
Proof. intros. cbn [run_writes run_write]. destruct (put s r c v f); reflexivity. Qed.
Lemma region_plain : forall g tl, Forall (fun w => match w with WLink _ => False | _ => True end) tl -> Forall no_link (region_cells g tl).
Proof.
  intros [[[r0 r1] c0] c1] tl F. unfold region_cells. apply Forall_forall. intros o Ho. apply in_flat_map in Ho. destruct Ho as (r & _ & Ho). apply in_flat_map in Ho. destruct Ho as (c & _ & Ho).
  apply in_map_iff in Ho. destruct Ho as (w & <- & I). unfold no_link. cbn [snd]. destruct (_ && _); [rewrite Forall_forall in F; apply (F w I)|]. destruct I as [<-|[]]. exact Logic.I.
Qed.
Lemma region_good_writes : forall mr mc g tl, 0 <= fst (fst (fst g)) -> 0 <= snd (fst g) -> Forall (fun w => good_write (0, 0, w)) tl -> Forall good_write (region_cells (clip mr mc g) tl).
Proof. intros mr mc g tl H1 H2 F. destruct (clip_lo mr mc g) as [Q1 Q2]. apply good_region; [rewrite Q1; exact H1|rewrite Q2; exact H2|exact F]. Qed.

Lemma idx_drop : forall d a k, 0 <= a -> 0 <= k -> a + k < zlen d -> idx (zdrop a d) k = Ok (field d (a + k) 1).
Proof. intros d a k H H0 H1. rewrite idx_field by (rewrite zlen_zdrop; lia). unfold field. rewrite zdrop_zdrop by lia. reflexivity. Qed.
Lemma field2_bytes : forall d a, 0 <= a -> a + 2 <= zlen d -> field d a 2 = field d a 1 + 256 * field d (a + 1) 1.
Proof.
  intros d a H H0. destruct (take2 d a H H0) as (x & y & l & E). rewrite (field2 _ _ _ _ _ E). unfold field. assert (E2 : zdrop (a + 1) d = y :: l) by (replace (a + 1) with (a + 1) by lia; rewrite <- zdrop_zdrop by lia; rewrite E; reflexivity).
  rewrite E, E2. change (ztake 1 (x :: y :: l)) with [x]. change (ztake 1 (y :: l)) with [y]. cbn [le_val]. lia.
Qed.
Lemma formula_short : forall w s d, zlen (dat d) < 14 -> bad (formula_rec w s d).
Proof.
  intros w s d L. unfold formula_rec. do 3 (apply bad_bind; intros ? _). apply bad_bind. intros fd E. assert (FD : zlen (dat fd) < 8).
  { unfold sl_from, sl_len in E. destruct (_ && _) eqn:C; [|discriminate]. injection E as <-. cbn [dat]. rewrite zlen_zdrop; lia. }
  apply bad_bind. intros f6 _. apply bad_first.
  assert (B8 : forall A (k : Z -> res A), bad (bind (le64 (dat fd)) k)).
  { intros. apply bad_first. destruct (dat fd) as [|b0 [|b1 [|b2 [|b3 [|b4 [|b5 [|b6 [|b7 l]]]]]]]]; try apply bad_panic. unfold zlen in FD. cbn [List.length] in FD. lia. }
  destruct (negb _); [apply B8|]. rewrite idx_short by lia. apply bad_panic.
Qed.
Lemma formula_inv : forall (m : res sheet) a b u st', bind (bind m (fun s => Ok (s, a, b))) (fun '(s, row, col) => Ok (mkPst s row col u)) = Ok st' -> m = Ok (p_sheet st') /\ (p_row st', p_col st') = (a, b).
Proof. intros [s|e| |] a b u st' H; cbn [bind] in H; try discriminate. injection H as <-. auto. Qed.

Section Record.
  Variables (w : wbook) (mr mc : Z) (st : pst) (r : brec) (rest : list brec) (st' : pst).
  Hypothesis X : Forall w16 (wb_xfs w).
  Hypothesis W : rec_wf r.
  Let p := payload r.
  Let ws := rec_says link_of (wb_strings w) (wb_xfs w) mr mc r.
  Lemma rec_step : b_type r <> 519 -> sheet_rec w mr mc st r rest = Ok st' ->
    run_writes (p_sheet st) ws = Ok (p_sheet st') /\ Forall good_write ws /\ Forall no_link ws /\
    (p_row st', p_col st') = (if b_type r =? 6 then (field p 0 2, field p 2 2) else (p_row st, p_col st)).
  Proof.
    intros NT H. destruct W as (B & Sz & Lt). fold p in B, Sz, Lt. pose proof (zlen_nonneg _ p) as NN.
    assert (F16 : forall a, 0 <= a -> a + 2 <= zlen p -> 0 <= field p a 2 < 65536) by (intros; apply (w16_field p); auto).
    assert (GW : forall v xf, 4 <= zlen p -> 0 <= xf -> good_value v -> Forall good_write [(field p 0 2, field p 2 2, WPut v (xf_format (wb_xfs w) xf))]).
    { intros v xf L0 H0 H1. constructor; [|constructor]. rewrite <- xf_fmt_ok by exact H0. apply good1; [apply F16; lia|apply F16; lia|apply xf_w16; exact X|exact H1]. }
    assert (GW0 : forall v, 4 <= zlen p -> good_value v -> Forall good_write [(field p 0 2, field p 2 2, WPut v 0)]).
    { intros v L0 H1. constructor; [|constructor]. apply good1; [apply F16; lia|apply F16; lia|lia|exact H1]. }
    assert (NL : forall v f, Forall no_link [(field p 0 2, field p 2 2, WPut v f)]) by (intros; constructor; [exact I|constructor]).
    unfold ws, rec_says. fold p. unfold sheet_rec in H. fold p in H.
    unfold RecTypeBoolErr, RecTypeMulRk, RecTypeNumber, RecTypeRK, RecTypeFormula, RecTypeString, RecTypeLabelSst, RecTypeHLink, RecTypeMergeCells in H.
    destruct (Z.eqb_spec (b_type r) 517) as [E|N1].
    { rewrite E. zdec. destruct (Z_lt_ge_dec (zlen p) 8) as [S|S].
      { exfalso. revert H. do 3 (apply bad_bind; intros ? _). apply bad_first. rewrite idx_short by (fold p; lia). apply bad_panic. }
      rewrite !field16_val in H by (fold p; lia). cbn [bind] in H. unfold sl_idx in H. fold p in H. rewrite !idx_field in H by lia. cbn [bind] in H.
      apply ret_inv in H. destruct H as [H ->]. rewrite xf_fmt_ok in H by (apply F16; lia). rewrite err_text_ok in H.
      destruct (field p 7 1 =? 0); rewrite one_write; (split; [exact H|]); (split; [|split; [apply NL|reflexivity]]); [apply GW; [lia|apply F16; lia|apply good_bool]|apply GW0; [lia|apply good_str]]. }
    destruct (Z.eqb_spec (b_type r) 189) as [E|N2].
    { rewrite E. zdec. assert (UL : 0 <= u16 (zlen p - 6) < 65536) by (unfold u16; apply Z.mod_pos_bound; lia).
      destruct (Z_lt_ge_dec (zlen p) 6) as [S|S].
      { exfalso. revert H. do 2 (apply bad_bind; intros ? _). apply bad_first. rewrite Sz. assert (UE : u16 (zlen p - 6) = zlen p - 6 + 65536) by (unfold u16; symmetry; apply Z.mod_unique with (q := -1); lia).
        rewrite UE. pose proof (Z.div_le_lower_bound (zlen p - 6 + 65536) 6 1 ltac:(lia) ltac:(lia)). apply mul_short; fold p; lia. }
      rewrite !field16_val in H by (fold p; lia). cbn [bind] in H. apply ret_inv in H. destruct H as [H ->]. rewrite Sz in H. unfold u16 in H. rewrite Z.mod_small in H by lia.
      pose proof (Z.div_mod (zlen p - 6) 6 ltac:(lia)). pose proof (Z.mod_pos_bound (zlen p - 6) 6 ltac:(lia)).
      rewrite mul_says in H by (fold p; auto; lia). fold p in H. rewrite Z2Nat.id in H by (apply Z.div_pos; lia). change (0 + (zlen p - 6) / 6 - 1) with ((zlen p - 6) / 6 - 1) in H. split; [exact H|]. split; [|split; [|reflexivity]].
      - apply Forall_forall. intros o I. apply in_map_iff in I. destruct I as (i & <- & I). apply in_zrange in I. rewrite <- xf_fmt_ok by (apply F16; lia). pose proof (F16 0 ltac:(lia) ltac:(lia)). pose proof (F16 2 ltac:(lia) ltac:(lia)).
        apply good1; [lia|lia|apply xf_w16; exact X|]. apply good_rk. apply (w32_field p); auto; lia.
      - apply Forall_forall. intros o I. apply in_map_iff in I. destruct I as (i & <- & I). exact Logic.I. }
    destruct (Z.eqb_spec (b_type r) 515) as [E|N3].
    { rewrite E. zdec. destruct (Z_lt_ge_dec (zlen p) 14) as [S|S].
      { exfalso. revert H. do 3 (apply bad_bind; intros ? _). apply bad_first. rewrite from64_short by (fold p; lia). apply bad_panic. }
      rewrite !field16_val in H by (fold p; lia). cbn [bind] in H. rewrite from64_ok in H by (fold p; lia). cbn [bind] in H. fold p in H. apply ret_inv in H. destruct H as [H ->]. rewrite xf_fmt_ok in H by (apply F16; lia).
      rewrite one_write. split; [exact H|]. split; [apply GW; [lia|apply F16; lia|apply good_f64]|split; [apply NL|reflexivity]]. }
    destruct (Z.eqb_spec (b_type r) 638) as [E|N4].
    { rewrite E. zdec. destruct (Z_lt_ge_dec (zlen p) 10) as [S|S].
      { exfalso. revert H. do 3 (apply bad_bind; intros ? _). apply bad_first. unfold from32, sl_from, sl_len. fold p. destruct (_ && _) eqn:C; [|apply bad_panic]. cbn [bind dat]. pose proof (zlen_zdrop _ p 6 ltac:(lia)) as Z. destruct (zdrop 6 p) as [|? [|? [|? [|? ?]]]]; try apply bad_panic. unfold zlen in *. cbn [List.length] in Z. lia. }
      rewrite !field16_val in H by (fold p; lia). cbn [bind] in H. rewrite from16_val in H by (fold p; lia). cbn [bind] in H. rewrite from32_val in H by (fold p; lia). cbn [bind] in H. fold p in H. apply ret_inv in H. destruct H as [H ->].
      assert (W6 : w32 (field p 6 4)) by (apply w32_field; auto; lia). rewrite xf_fmt_ok, rk_value_ok in H by (auto; apply F16; lia).
      rewrite one_write. split; [exact H|]. split; [apply GW; [lia|apply F16; lia|apply good_rk; exact W6]|split; [apply NL|reflexivity]]. }
    destruct (Z.eqb_spec (b_type r) 6) as [E|N5].
    { rewrite E. zdec. destruct (Z_lt_ge_dec (zlen p) 14) as [S|S].
      { exfalso. revert H. apply bad_first. apply formula_short. exact S. }
      unfold formula_rec in H. rewrite !field16_val in H by (fold p; lia). cbn [bind] in H. rewrite from_val in H by (fold p; lia). cbn [bind] in H. unfold sl_idx in H. cbn [dat] in H. fold p in H.
      rewrite (idx_drop p 6 6), (idx_drop p 6 7), (idx_drop p 6 0), (idx_drop p 6 2), le64_ok in H by lia. cbn [bind] in H. change (6 + 6) with 12 in H. change (6 + 7) with 13 in H. change (6 + 0) with 6 in H. change (6 + 2) with 8 in H.
      apply formula_inv in H. destruct H as [H ->]. rewrite xf_fmt_ok in H by (apply F16; lia). rewrite err_text_ok in H.
      rewrite (field2_bytes p 12) by lia. change (12 + 1) with 13. pose proof (field1_byte p 12 B) as R12. pose proof (field1_byte p 13 B) as R13.
      assert (NUM : put (p_sheet st) (field p 0 2) (field p 2 2) (GF64 (f_of_bits (field p 6 8))) (xf_format (wb_xfs w) (field p 4 2)) = Ok (p_sheet st') ->
        let ws := [(field p 0 2, field p 2 2, WPut (GF64 (f_of_bits (field p 6 8))) (xf_format (wb_xfs w) (field p 4 2)))] in
        run_writes (p_sheet st) ws = Ok (p_sheet st') /\ Forall good_write ws /\ Forall no_link ws /\ (field p 0 2, field p 2 2) = (field p 0 2, field p 2 2)).
      { intros Q. cbv zeta. rewrite one_write. split; [exact Q|]. split; [apply GW; [lia|apply F16; lia|apply good_f64]|split; [apply NL|reflexivity]]. }
      destruct (Z.eqb_spec (field p 12 1) 255) as [E12|E12]; cbn [negb] in H.
      2:{ replace (field p 12 1 + 256 * field p 13 1 =? 65535) with false by lia. cbn [negb]. apply NUM. exact H. }
      destruct (Z.eqb_spec (field p 13 1) 255) as [E13|E13]; cbn [negb] in H.
      2:{ replace (field p 12 1 + 256 * field p 13 1 =? 65535) with false by lia. cbn [negb]. apply NUM. exact H. }
      replace (field p 12 1 + 256 * field p 13 1 =? 65535) with true by lia. cbn [negb].
      destruct (field p 6 1 =? 0); [rewrite one_write; split; [exact H|]; split; [apply GW; [lia|apply F16; lia|apply good_str]|split; [apply NL|reflexivity]]|].
      destruct (field p 6 1 =? 1); [rewrite one_write; split; [exact H|]; split; [apply GW; [lia|apply F16; lia|apply good_bool]|split; [apply NL|reflexivity]]|].
      destruct (field p 6 1 =? 2); [rewrite one_write; split; [exact H|]; split; [apply GW0; [lia|apply good_str]|split; [apply NL|reflexivity]]|].
      injection H as <-. cbn [run_writes]. repeat split; constructor. }
    destruct (Z.eqb_spec (b_type r) 519) as [E|_]; [contradiction|].
    destruct (Z.eqb_spec (b_type r) 253) as [E|N7].
    { destruct (Z_lt_ge_dec (zlen p) 10) as [S|S].
      { exfalso. revert H. do 3 (apply bad_bind; intros ? _). apply bad_first. unfold from32, sl_from, sl_len. fold p. destruct (_ && _) eqn:C; [|apply bad_panic]. cbn [bind dat]. pose proof (zlen_zdrop _ p 6 ltac:(lia)) as Z. destruct (zdrop 6 p) as [|? [|? [|? [|? ?]]]]; try apply bad_panic. unfold zlen in *. cbn [List.length] in Z. lia. }
      rewrite !field16_val in H by (fold p; lia). cbn [bind] in H. rewrite from32_val in H by (fold p; lia). cbn [bind] in H. fold p in H. destruct (_ <? _); [discriminate|].
      destruct (idx (wb_strings w) (field p 6 4)) as [str| | |] eqn:IX; cbn [bind] in H; try discriminate H. apply idx_inv in IX. destruct IX as [_ IX]. rewrite (nth_error_nth _ _ [] IX).
      apply ret_inv in H. destruct H as [H ->]. rewrite xf_fmt_ok in H by (apply F16; lia). destruct str as [|ch str].
      - change (str_eqb [] []) with true in H. cbv iota in H. injection H as <-. cbn [run_writes]. repeat split; constructor.
      - change (str_eqb (ch :: str) []) with false in H. cbv iota in H. rewrite one_write. split; [exact H|]. split; [apply GW; [lia|apply F16; lia|apply good_str]|split; [apply NL|reflexivity]]. }
    destruct (Z.eqb_spec (b_type r) 440) as [E|N8].
    { apply ret_inv in H. destruct H as [H ->]. unfold hlink_rec in H. destruct (Z_lt_ge_dec (zlen p) 8) as [S|S].
      { exfalso. revert H. do 3 (apply bad_bind; intros ? _). apply bad_first. rewrite from16_short by (fold p; lia). apply bad_panic. }
      rewrite !field16_val in H by (fold p; lia). cbn [bind] in H. rewrite from16_val in H by (fold p; lia). cbn [bind] in H. fold p in H.
      destruct (Z.ltb_spec mc (field p 4 2)); [injection H as <-; replace (field p 4 2 <=? mc) with false by lia; cbn [andb run_writes]; repeat split; constructor|].
      destruct (Z.ltb_spec mr (field p 0 2)); [injection H as <-; replace (field p 0 2 <=? mr) with false by lia; rewrite andb_false_r; cbn [run_writes]; repeat split; constructor|].
      replace (field p 4 2 <=? mc) with true by lia. replace (field p 0 2 <=? mr) with true by lia. cbn [andb]. rewrite from_val in H by (fold p; lia). cbn [bind] in H. fold p in H. unfold link_of.
      destruct (decode_hyperlinks _) as [[dd ll]|er| |]; try discriminate H.
      - rewrite put_all_writes, region_writes_ok, clip_row, clip_col in H. unfold region_at. split; [exact H|]. pose proof (F16 0 ltac:(lia) ltac:(lia)). pose proof (F16 4 ltac:(lia) ltac:(lia)). split; [|split; [|reflexivity]].
        + apply region_good_writes; [cbn [fst snd]; lia|cbn [fst snd]; change (0 + 4) with 4; lia|]. constructor; [apply good1; try lia; apply good_str|constructor].
        + apply region_plain. constructor; [exact I|constructor].
      - injection H as <-. cbn [run_writes]. repeat split; constructor. }
    destruct (Z.eqb_spec (b_type r) 229) as [E|N9].
    { destruct (Z_lt_ge_dec (zlen p) 2) as [S|S].
      { exfalso. revert H. apply bad_bind; intros ? _. apply bad_first. rewrite from_short by (fold p; lia). apply bad_panic. }
      rewrite !field16_val in H by (fold p; lia). cbn [bind] in H. rewrite from_val in H by (fold p; lia). cbn [bind] in H. fold p in H. apply ret_inv in H. destruct H as [H ->]. pose proof (F16 0 ltac:(lia) ltac:(lia)) as R0.
      destruct (Z_lt_ge_dec (zlen p) (2 + 8 * field p 0 2)) as [S2|S2].
      { exfalso. revert H. apply merge_short. cbn [dat]. rewrite zlen_zdrop by lia. lia. }
      rewrite merge_says in H; [|cbn [dat]; apply bytes_ok_zdrop; exact B|cbn [dat]; rewrite zlen_zdrop; lia]. cbn [dat] in H. rewrite Z2Nat.id in H by lia.
      assert (EQ : flat_map (fun i => region_cells (clip mr mc (region_at (zdrop 2 p) (8 * i))) []) (zrange 0 (field p 0 2 - 1)) = flat_map (fun i => region_cells (clip mr mc (region_at p (2 + 8 * i))) []) (zrange 0 (field p 0 2 - 1))).
      { rewrite !flat_map_concat_map. f_equal. apply map_ext_in. intros i Hi. apply in_zrange in Hi. unfold region_at, field. rewrite !zdrop_zdrop by lia. rewrite !Z.add_assoc. reflexivity. }
      rewrite EQ in H. split; [exact H|]. split; [|split; [|reflexivity]].
      - apply Forall_flat_map. apply Forall_forall. intros i Hi. apply in_zrange in Hi. unfold region_at. apply region_good_writes; [cbn [fst snd]; apply F16; lia|cbn [fst snd]; apply F16; lia|constructor].
      - apply Forall_flat_map. apply Forall_forall. intros i Hi. apply region_plain. constructor. }
    injection H as <-. cbn [run_writes]. repeat split; constructor.
  Qed.
End Record.

(** ** texts of formulas *)
Lemma pairs_even : forall l, pairs (ztake (2 * (zlen l / 2)) l) = pairs l.
Proof.
  assert (G : forall n l, (List.length l <= n)%nat -> pairs (ztake (2 * (zlen l / 2)) l) = pairs l).
  { induction n as [|n IH]; intros l L; [destruct l; [reflexivity|cbn [List.length] in L; lia]|]. destruct l as [|a [|b l]]; [reflexivity|reflexivity|]. cbn [List.length] in L.
    assert (E : zlen (a :: b :: l) = zlen l + 1 * 2) by (unfold zlen; cbn [List.length]; lia). rewrite E, Z.div_add by lia. pose proof (zlen_nonneg _ l). pose proof (Z.div_pos (zlen l) 2 ltac:(lia) ltac:(lia)).
    unfold ztake. replace (Z.to_nat (2 * (zlen l / 2 + 1))) with (S (S (Z.to_nat (2 * (zlen l / 2))))) by lia. cbn [firstn pairs]. f_equal. apply IH. lia. }
  intros l. apply (G (List.length l)). lia.
Qed.
Lemma head_says : forall d u t u', bytes_ok (dat d) -> string_head d u = Ok (t, u') -> t = first_chunk (dat d).
Proof.
  intros d u t u' B H. unfold string_head in H. destruct (Z_lt_ge_dec (zlen (dat d)) 3) as [S|S].
  { exfalso. revert H. apply bad_bind. intros ? _. apply bad_first. rewrite idx_short by lia. apply bad_panic. }
  rewrite field16_val in H by lia. cbn [bind] in H. unfold sl_idx in H. rewrite idx_field in H by lia. cbn [bind] in H. rewrite from_val in H by lia. cbn [bind dat] in H. unfold first_chunk. rewrite land1 in H.
  destruct (_ =? 0); [injection H as <- _; reflexivity|]. destruct (units_len _ _) as [[us r]| | |] eqn:U; cbn [bind] in H; try discriminate H. injection H as <- _. apply units_pairs in U. cbn [dat] in U. subst us.
  pose proof (w16_field _ 0 B ltac:(lia) ltac:(lia)) as Q. unfold w16 in Q. rewrite Z2Nat.id by lia. reflexivity.
Qed.
Lemma conts_says : forall l u t, Forall rec_wf l -> string_conts l u = Ok t -> t = flat_map more_chunk (lead l).
Proof.
  induction l as [|r l IH]; intros u t F H; cbn [string_conts lead] in *; [injection H as <-; reflexivity|]. unfold RecTypeContinue in H. destruct (Z.eqb_spec (b_type r) 60); cbn [negb] in H; [|injection H as <-; reflexivity].
  inversion F as [|? ? (B & _) F']; subst. cbn [flat_map]. destruct (Z_lt_ge_dec (zlen (payload r)) 1) as [S|S].
  { exfalso. revert H. apply bad_first. rewrite idx_short by (pose proof (zlen_nonneg _ (payload r)); lia). apply bad_panic. }
  unfold sl_idx in H. rewrite idx_field in H by lia. cbn [bind] in H. rewrite from_val in H by lia. cbn [bind dat] in H. rewrite land1 in H. unfold more_chunk at 1.
  destruct (_ =? 0); cbn [bind] in H.
  - destruct (string_conts l u) as [t2| | |] eqn:C; cbn [bind] in H; try discriminate H. injection H as <-. f_equal. eapply IH; eauto.
  - unfold sl_len in H. cbn [dat] in H. destruct (_ <? _); [discriminate H|]. destruct (units_len _ _) as [[us rr]| | |] eqn:U; cbn [bind] in H; try discriminate H.
    destruct (string_conts l u) as [t2| | |] eqn:C; cbn [bind] in H; try discriminate H. injection H as <-. apply units_pairs in U. cbn [dat] in U. pose proof (zlen_nonneg _ (zdrop 1 (payload r))).
    rewrite Z2Nat.id in U by (apply Z.div_pos; lia). rewrite pairs_even in U. subst us. f_equal. eapply IH; eauto.
Qed.

(** ** all records *)
Lemma recs_says : forall w mr mc x n0 m0 l first depth st st' acc, Forall w16 (wb_xfs w) -> reach_fx x -> Forall rec_wf l -> 0 <= depth -> Forall no_link acc ->
  shows x n0 m0 acc (p_sheet st) -> sheet_recs w mr mc l first depth st = Ok st' ->
  shows x n0 m0 (says link_of (wb_strings w) (wb_xfs w) mr mc l first depth (p_row st, p_col st) acc) (p_sheet st').
Proof.
  intros w mr mc x n0 m0 l. induction l as [|r l IH]; intros first depth st st' acc X RF WF D NL SH H; cbn [sheet_recs says] in *; [injection H as <-; exact SH|].
  inversion WF as [|? ? W1 WF']; subst. unfold RecTypeBOF, RecTypeEOF in H. destruct (Z.ltb_spec 0 depth).
  { apply (IH false); auto. destruct (b_type r =? 10); lia. }
  replace depth with 0 in * by lia. destruct (Z.eqb_spec (b_type r) 2057) as [E|E].
  { change (0 + 1) with 1 in H. apply (IH false); auto. destruct first; lia. }
  destruct (sheet_rec w mr mc st r l) as [st1| | |] eqn:R; cbn [bind] in H; try discriminate H. destruct (Z.eqb_spec (b_type r) 519) as [E1|E1].
  - unfold sheet_rec in R. rewrite E1 in R. unfold RecTypeBoolErr, RecTypeMulRk, RecTypeNumber, RecTypeRK, RecTypeFormula, RecTypeString in R.
    change (519 =? 517) with false in R. change (519 =? 189) with false in R. change (519 =? 515) with false in R. change (519 =? 638) with false in R. change (519 =? 6) with false in R. change (519 =? 519) with true in R. cbv iota in R.
    destruct (string_head _ _) as [[t1 u1]| | |] eqn:SHD; cbn [bind] in R; try discriminate R. destruct (string_conts l u1) as [t2| | |] eqn:SC; cbn [bind] in R; try discriminate R.
    destruct (set_value _ _ _ _) as [s1| | |] eqn:SV; cbn [bind] in R; try discriminate R. injection R as <-. apply head_says in SHD; [|apply W1]. apply conts_says in SC; [|exact WF']. subst t1 t2.
    pose proof (shows_set _ _ _ _ _ _ _ _ _ SH NL SV) as S1. cbn [fst snd]. change (first_chunk (payload r) ++ flat_map more_chunk (lead l)) with (string_text (payload r) (lead l)) in S1.
    match goal with |- shows _ _ _ (says _ _ _ _ _ _ _ _ _ ?a) _ => apply (IH false 0 (mkPst s1 (p_row st) (p_col st) u1) st' a); auto; try lia end.
    apply Forall_app. split; [exact NL|]. destruct (last_write _ _ _); [constructor; [exact I|constructor]|constructor].
  - destruct (rec_step w mr mc st r l st1 X W1 E1 R) as (R1 & G1 & N1 & P1). rewrite <- P1. apply (IH false 0 st1); auto; try lia; [apply Forall_app; auto|]. eapply shows_run; eauto.
Qed.
Lemma dims_says : forall l first depth s0 mr0 mc0 s mr mc, 0 <= depth -> Forall (fun r => is_dim r = true -> 12 <= zlen (payload r)) (top l first depth) ->
  (List.length (filter is_dim (top l first depth)) <= 1)%nat -> scan_dims l first depth s0 mr0 mc0 = Ok (Some (s, mr, mc)) ->
  match filter is_dim (top l first depth) with
  | [] => s = s0 /\ mr = mr0 /\ mc = mc0
  | r :: _ => mr = field (payload r) 4 4 /\ mc = field (payload r) 10 2 /\ s = resize s0 mr mc
  end.
Proof.
  induction l as [|r l IH]; intros first depth s0 mr0 mc0 s mr mc D F L H; cbn [scan_dims top filter] in *; [injection H as <- <- <-; auto|]. unfold RecTypeBOF, RecTypeEOF, RecTypeWsBool, RecTypeDimensions in H. destruct (Z.ltb_spec 0 depth).
  { eapply (IH false); eauto. destruct (b_type r =? 10); lia. }
  replace depth with 0 in * by lia. destruct (Z.eqb_spec (b_type r) 2057) as [E|E].
  { change (0 + 1) with 1 in H. eapply (IH false); eauto. destruct first; lia. }
  inversion F as [|? ? F1 F']; subst. assert (FD : filter is_dim (r :: top l false 0) = if b_type r =? 512 then r :: filter is_dim (top l false 0) else filter is_dim (top l false 0)) by reflexivity. rewrite FD in *. clear FD.
  destruct (Z.eqb_spec (b_type r) 129) as [E1|E1].
  { rewrite E1 in *. change (129 =? 512) with false in *. cbv iota in *. destruct (sl_idx _ _); cbn [bind] in H; try discriminate H. destruct (negb _); [discriminate H|]. eapply (IH false 0); eauto; lia. }
  destruct (Z.eqb_spec (b_type r) 512) as [E2|E2]; [|eapply (IH false 0); eauto; lia].
  assert (S : 12 <= zlen (payload r)) by (apply F1; unfold is_dim; rewrite E2; reflexivity). rewrite !field32_val, !field16_val in H by lia. cbn [bind] in H. cbn [List.length] in L.
  destruct (filter is_dim (top l false 0)) eqn:FL; [|cbn [List.length] in L; lia]. assert (L0 : (List.length (filter is_dim (top l false 0)) <= 1)%nat) by (rewrite FL; cbn [List.length]; lia). pose proof (IH false 0 _ _ _ _ _ _ ltac:(lia) F' L0 H) as Q. rewrite FL in Q. destruct Q as (-> & -> & ->). auto.
Qed.

(** ** C104 *)
(** One substream: if it can be read at all, the sheet shows what its records say, and nothing else. *)
Theorem C104_sheet : forall w ss l s, reach_fx (wb_fx w) -> Forall w16 (wb_xfs w) -> idx (wb_streams w) ss = Ok l -> Forall rec_wf l -> plain_dimension l ->
  parse_sheet w ss = Ok (Some s) ->
  displays (wb_fx w) (sheet_says link_of (wb_strings w) (wb_xfs w) l) (fst (declared l)) (snd (declared l)) s.
Proof.
  intros w ss l s RF X El WF (OD & FD) H. unfold parse_sheet in H. rewrite El in H. cbn [bind] in H.
  destruct (scan_dims _ _ _ _ _ _) as [[[[s0 mr] mc]|]| | |] eqn:SD; cbn [bind] in H; try discriminate H.
  destruct (sheet_recs _ _ _ _ _ _ _) as [st| | |] eqn:SR; cbn [bind] in H; try discriminate H. injection H as <-.
  pose proof (dims_says l true 0 _ _ _ _ _ _ (Z.le_refl 0) FD OD SD) as DS. unfold sheet_says, declared.
  destruct (filter is_dim (top l true 0)) as [|r ds] eqn:FL.
  - destruct DS as (-> & -> & ->). cbn [fst snd].
    assert (S0 : shows (wb_fx w) 0 0 [] (empty_sheet (wb_fx w))).
    { split; [apply wf_empty|]. split; [reflexivity|]. split; [reflexivity|]. split; [intros; left; apply content_empty|]. split; [intros; apply content_empty|]. split; [intros ? ? Q; exfalso; apply Q; reflexivity|]. split; [reflexivity|]. split; [reflexivity|constructor]. }
    pose proof (recs_says w 0 0 (wb_fx w) 0 0 l true 0 (mkPst (empty_sheet (wb_fx w)) 0 0 8224) st [] X RF WF ltac:(lia) (Forall_nil _) S0 SR) as (W & Fx & Cu & L & Co & Po & N1 & N2 & G). cbn [p_row p_col] in *.
    revert Co Po N1 N2 G. generalize (says link_of (wb_strings w) (wb_xfs w) 0 0 l true 0 (0, 0) []) as ws. intros ws Co Po N1 N2 G.
    apply displays_content; auto; [rewrite N1; apply extent_ge|rewrite N2; apply extent_ge|].
    destruct ws as [|[[a b] o] ws]; [left; rewrite N1; repeat split; lia|]. right. rewrite N1, N2. inversion G as [|? ? (Ga & Gb & _)]; subst. cbn [fst snd] in Ga, Gb. cbn [map extent fold_right].
    fold (extent (Z.max 1 0) (map wrow ws)) (extent (Z.max 1 0) (map wcol ws)) (extent 0 (map wrow ws)) (extent 0 (map wcol ws)).
    change (Z.max 1 0) with (Z.max 0 1). rewrite !extent_max. change (wrow (a, b, o)) with a; change (wcol (a, b, o)) with b. pose proof (extent_ge (map wrow ws) 0). pose proof (extent_ge (map wcol ws) 0). split; lia.
  - destruct DS as (Emr & Emc & ->). cbn [fst snd]. rewrite <- Emr, <- Emc.
    assert (IR : In r (top l true 0) /\ is_dim r = true) by (apply filter_In; rewrite FL; left; reflexivity). destruct IR as [IR IDIM].
    assert (BR : bytes_ok (payload r)) by (rewrite Forall_forall in WF; apply (WF r (top_incl _ _ _ _ IR))). assert (LR : 12 <= zlen (payload r)) by (rewrite Forall_forall in FD; apply (FD r IR IDIM)).
    pose proof (w32_field _ 4 BR ltac:(lia) ltac:(lia)) as W1. pose proof (w16_field _ 10 BR ltac:(lia) ltac:(lia)) as W2. unfold w32, w16 in W1, W2. rewrite <- Emr in W1. rewrite <- Emc in W2.
    assert (M1 : 0 <= mr) by lia. assert (M2 : 0 <= mc) by lia.
    destruct (grows_wf (empty_sheet (wb_fx w)) [OResize mr mc]) as (s2 & R & W & Fx); auto; [constructor; auto; constructor|apply wf_empty|]. cbn [run_ops run_op bind] in R. injection R as <-.
    assert (Bl : forall a b, content (resize (empty_sheet (wb_fx w)) mr mc) a b = []) by (intros; apply resize_content_blank; reflexivity).
    assert (S0 : shows (wb_fx w) (Z.max 1 mr) (Z.max 1 mc) [] (resize (empty_sheet (wb_fx w)) mr mc)).
    { split; [exact W|]. split; [exact Fx|]. split; [reflexivity|]. split; [intros; left; apply Bl|]. split; [intros; apply Bl|]. split; [intros ? ? Q; exfalso; apply Q; reflexivity|].
      unfold resize. cbn [sh_nrows sh_ncols map extent fold_right]. split; [destruct (Z.leb_spec mr 0); lia|]. split; [destruct (Z.leb_spec mc 0); lia|constructor]. }
    pose proof (recs_says w mr mc (wb_fx w) _ _ l true 0 (mkPst (resize (empty_sheet (wb_fx w)) mr mc) 0 0 8224) st [] X RF WF ltac:(lia) (Forall_nil _) S0 SR) as (W3 & Fx3 & Cu & L & Co & Po & N1 & N2 & G). cbn [p_row p_col] in *.
    match type of N1 with _ = extent ?n ?q => pose proof (extent_ge q n) end. match type of N2 with _ = extent ?n ?q => pose proof (extent_ge q n) end.
    apply displays_content; auto; lia.
Qed.

(** * P_robust: C85 — XLS sheets with malformed records. *)
From Verif Require Import GoBase GoFloat GoUnicode L_base M_grate M_value M_fmt M_formats M_cell M_sheet M_biff M_hlink M_xlstr M_xls S_cell L_cell S_sheet L_sheet S_grid L_grid S_cfb L_cfb P_cfb S_hlink P_hlink S_xls L_xls P_xls S_biff L_biff S_xlstr P_xlstr S_table L_table S_link L_link S_robust L_total GoCrypto M_crypto L_crypto.
From Coq Require Import Lia ZifyBool ZifyNat.
Local Opaque f_of_bits fdiv f_of_Z put set_value fx_add.

Definition safe {A} (r : res A) (P : A -> Prop) : Prop := match r with Ok x => P x | Err e => e = ESstIndex | Panic | NoFuel => False end.
Lemma safe_bind : forall A B (m : res A) (f : A -> res B) P Q, safe m P -> (forall x, P x -> safe (f x) Q) -> safe (bind m f) Q.
Proof. intros A B [x|e| |] f P Q H G; cbn [bind safe] in *; auto. Qed.
Lemma safe_ok : forall A (x : A) (P : A -> Prop), P x -> safe (Ok x) P.
Proof. auto. Qed.

(** ** fields *)
Lemma take2 : forall (d : bytes) a, 0 <= a -> a + 2 <= zlen d -> exists x y r, zdrop a d = x :: y :: r.
Proof.
  intros d a H H0. pose proof (zlen_zdrop _ d a ltac:(lia)) as L. destruct (zdrop a d) as [|x [|y r]]; eauto; unfold zlen in *; cbn [List.length] in *; lia.
Qed.
Lemma take4 : forall (d : bytes) a, 0 <= a -> a + 4 <= zlen d -> exists x y z t r, zdrop a d = x :: y :: z :: t :: r.
Proof.
  intros d a H H0. pose proof (zlen_zdrop _ d a ltac:(lia)) as L. destruct (zdrop a d) as [|x [|y [|z [|t r]]]]; eauto 6; unfold zlen in *; cbn [List.length] in *; lia.
Qed.
Lemma field2 : forall d a x y r, zdrop a d = x :: y :: r -> field d a 2 = x + 256 * y.
Proof. intros. unfold field. rewrite H. change (ztake 2 (x :: y :: r)) with [x; y]. cbn [le_val]. lia. Qed.
Lemma field4 : forall d a x y z t r, zdrop a d = x :: y :: z :: t :: r -> field d a 4 = x + 256 * y + 65536 * z + 16777216 * t.
Proof. intros. unfold field. rewrite H. change (ztake 4 (x :: y :: z :: t :: r)) with [x; y; z; t]. cbn [le_val]. lia. Qed.
Lemma byte_in : forall d a x r, bytes_ok d -> zdrop a d = r -> In x r -> 0 <= x < 256.
Proof. intros d a x r B E I. assert (H : bytes_ok r) by (rewrite <- E; apply bytes_ok_zdrop; auto). unfold bytes_ok in H. rewrite Forall_forall in H. apply H. auto. Qed.
Lemma w16_field : forall d a, bytes_ok d -> 0 <= a -> a + 2 <= zlen d -> w16 (field d a 2).
Proof.
  intros d a B H H0. destruct (take2 d a H H0) as (x & y & r & E). rewrite (field2 _ _ _ _ _ E).
  assert (0 <= x < 256) by (apply (byte_in d a x _ B E); left; auto). assert (0 <= y < 256) by (apply (byte_in d a y _ B E); right; left; auto). unfold w16. lia.
Qed.
Lemma w32_field : forall d a, bytes_ok d -> 0 <= a -> a + 4 <= zlen d -> w32 (field d a 4).
Proof.
  intros d a B H H0. destruct (take4 d a H H0) as (x & y & z & t & r & E). rewrite (field4 _ _ _ _ _ _ _ E).
  assert (0 <= x < 256) by (apply (byte_in d a x _ B E); left; auto). assert (0 <= y < 256) by (apply (byte_in d a y _ B E); right; left; auto).
  assert (0 <= z < 256) by (apply (byte_in d a z _ B E); right; right; left; auto). assert (0 <= t < 256) by (apply (byte_in d a t _ B E); right; right; right; left; auto). unfold w32. lia.
Qed.
Lemma from16_val : forall d a, 0 <= a -> a + 2 <= zlen (dat d) -> from16 d a = Ok (field (dat d) a 2).
Proof.
  intros d a H H0. unfold from16, sl_from. unfold sl_len. replace ((0 <=? a) && (a <=? zlen (dat d))) with true by lia. cbn [bind dat].
  destruct (take2 _ a H H0) as (x & y & r & E). rewrite (field2 _ _ _ _ _ E), E. reflexivity.
Qed.
Lemma from32_val : forall d a, 0 <= a -> a + 4 <= zlen (dat d) -> from32 d a = Ok (field (dat d) a 4).
Proof.
  intros d a H H0. unfold from32, sl_from. unfold sl_len. replace ((0 <=? a) && (a <=? zlen (dat d))) with true by lia. cbn [bind dat].
  destruct (take4 _ a H H0) as (x & y & z & t & r & E). rewrite (field4 _ _ _ _ _ _ _ E), E. reflexivity.
Qed.
Lemma range_val : forall d a n, 0 <= a -> 0 <= n -> a + n <= zlen (dat d) -> exists sp, sl_range d a (a + n) = Ok (mkSl (ztake n (zdrop a (dat d))) sp).
Proof.
  intros d a n H H0 H1. unfold sl_range, sl_full. rewrite zlen_app. pose proof (zlen_nonneg _ (spare d)). replace ((0 <=? a) && (a <=? a + n) && (a + n <=? zlen (dat d) + zlen (spare d))) with true by lia.
  replace (a + n - a) with n by lia. eexists. f_equal. f_equal. rewrite zdrop_app_le by lia. rewrite ztake_app_le; [reflexivity|]. rewrite zlen_zdrop; lia.
Qed.
Lemma field16_val : forall d a, 0 <= a -> a + 2 <= zlen (dat d) -> field16 d a = Ok (field (dat d) a 2).
Proof.
  intros d a H H0. unfold field16. destruct (range_val d a 2 H ltac:(lia) H0) as (sp & ->). cbn [bind dat].
  destruct (take2 _ a H H0) as (x & y & r & E). rewrite (field2 _ _ _ _ _ E), E. reflexivity.
Qed.
Lemma field32_val : forall d a, 0 <= a -> a + 4 <= zlen (dat d) -> field32 d a = Ok (field (dat d) a 4).
Proof.
  intros d a H H0. unfold field32. destruct (range_val d a 4 H ltac:(lia) H0) as (sp & ->). cbn [bind dat].
  destruct (take4 _ a H H0) as (x & y & z & t & r & E). rewrite (field4 _ _ _ _ _ _ _ E), E. reflexivity.
Qed.
Lemma idx_val : forall d a, bytes_ok d -> 0 <= a < zlen d -> exists x, idx d a = Ok x /\ 0 <= x < 256 /\ field d a 1 = x.
Proof.
  intros d a B H. destruct (idx_in _ d a H) as [x E]. exists x. split; auto. pose proof (zdrop_uncons _ _ _ _ E) as Z1. split.
  - apply (byte_in d a x _ B Z1). left; auto.
  - unfold field. rewrite Z1. change (ztake 1 (x :: zdrop (a + 1) d)) with [x]. cbn [le_val]. lia.
Qed.

(** ** sheets *)
Definition filled (s : sheet) (r c : Z) : Prop := 0 <= r < sh_nrows s /\ 0 <= c < sh_ncols s /\ content s r c <> [].
Lemma put_safe : forall s r c v f r0 c0, reach_sheet s -> good_put (OPut r c v f) ->
  safe (put s r c v f) (fun s' => reach_sheet s' /\ sh_fx s' = sh_fx s /\ filled s' r c /\ (filled s r0 c0 -> filled s' r0 c0)).
Proof.
  intros s r c v f r0 c0 R G. destruct (reach_sheet_inv s R) as (W & Fx & L). pose proof G as (Hr & Hc & Hf & Hg).
  destruct (make_put_cell_spec (sh_fx s) v f Fx Hg) as (cl & Em & Hs).
  destruct (put_ok s r c v f cl W Hr Hc Em) as (s1 & P & W1 & N1 & N2 & F1 & Cu & Ct). rewrite P. cbn [safe].
  assert (NE : cl <> []).
  { destruct Hs as [[_ ->]|[_ (v0 & t0 & v' & t' & _ & -> & _)]]; discriminate. }
  split; [eapply rs_put; eauto|]. split; auto. unfold filled. split.
  - split; [lia|]. split; [lia|]. rewrite Ct, !Z.eqb_refl. exact NE.
  - intros (A & B & C). split; [lia|]. split; [lia|]. rewrite Ct. destruct ((r =? r0) && (c =? c0)); [exact NE|exact C].
Qed.
Lemma put_all_safe : forall ws s r0 c0, reach_sheet s -> Forall (fun w => match w with (r, c, v, f) => good_put (OPut r c v f) end) ws ->
  safe (put_all s ws) (fun s' => reach_sheet s' /\ sh_fx s' = sh_fx s /\ (filled s r0 c0 -> filled s' r0 c0)).
Proof.
  induction ws as [|[[[r c] v] f] ws IH]; intros s r0 c0 R F; cbn [put_all]; [cbn [safe]; auto|]. inversion F; subst.
  eapply safe_bind; [apply (put_safe s r c v f r0 c0); auto|]. intros s1 (A & A2 & _ & B).
  specialize (IH s1 r0 c0 A H2). destruct (put_all s1 ws); cbn [safe] in *; auto. destruct IH as (I1 & I2 & I3). split; auto. split; [congruence|auto].
Qed.
Lemma set_safe : forall s r c t, reach_sheet s -> filled s r c ->
  safe (set_value s r c (GStr t)) (fun s' => reach_sheet s' /\ sh_fx s' = sh_fx s /\ filled s' r c).
Proof.
  intros s r c t R (A & B & C). destruct (reach_sheet_inv s R) as (W & Fx & L).
  destruct (set_value_cases s r c (GStr t) W L) as [[[H|H] _]|[(_ & _ & _ & _ & v0 & t0 & rest & s2 & Ec & P2 & E)|(_ & _ & H & _)]]; try lia.
  - rewrite E. cbn [safe]. split; [eapply rs_set; eauto|]. destruct (put_cell_frame _ _ _ _ _ W P2) as (W2 & (D1 & D2 & D3 & F2 & S2) & Cx). split; auto. unfold filled. rewrite Cx, D1, D2. repeat split; try lia. discriminate.
  - destruct H as [H|[H|[H|H]]]; try lia. congruence.
Qed.
Lemma region_good : forall r0 r1 c0 c1 tl, 0 <= r0 -> 0 <= c0 -> (forall v, tl = Some v -> exists t, v = GStr t) ->
  Forall (fun w : pwrite => match w with (r, c, v, f) => good_put (OPut r c v f) end) (region_writes r0 r1 c0 c1 tl).
Proof.
  intros r0 r1 c0 c1 tl H H0 HT. unfold region_writes. apply Forall_flat_map. apply Forall_forall. intros r Hr. apply Forall_flat_map. apply Forall_forall. intros c Hc.
  assert (U : forall a b x, In x (upto a b) -> a <= x).
  { clear. intros a b x. unfold upto. generalize (Z.to_nat (b - a + 1)). intros n. revert a. induction n; intros a H; cbn [count_from] in H; [contradiction|]. destruct H as [->|H]; [lia|]. apply IHn in H. lia. }
  apply U in Hr. apply U in Hc. unfold region_mark.
  assert (G : forall t, good_put (OPut r c (GStr t) 0)) by (intros; cbn [good_put]; split; [lia|]; split; [lia|]; split; [lia|apply good_str]).
  destruct (_ && _); [destruct tl as [v|]; [destruct (HT v eq_refl) as (t & ->)|]|destruct (c =? c0); [destruct (r =? r1)|destruct (c =? c1)]]; repeat first [apply Forall_nil|apply Forall_cons|apply G].
Qed.
Lemma xf_w16 : forall w i, Forall w16 (wb_xfs w) -> 0 <= xf_fmt w i < 65536.
Proof.
  intros w i F. unfold xf_fmt. destruct (i <? zlen (wb_xfs w)); [|lia]. destruct (nth_in_or_default (Z.to_nat i) (wb_xfs w) 0) as [I| ->]; [|lia].
  rewrite Forall_forall in F. apply F in I. exact I.
Qed.
Lemma rk_good : forall x, 0 <= x < 4294967296 -> good_value (rk_goval x).
Proof. intros. rewrite rk_value_ok by exact H. apply good_rk. exact H. Qed.

(** ** one record *)
(** what holds for every record of a file, and [sized] *)
Definition rec_wf (r : brec) : Prop := bytes_ok (payload r) /\ b_size r = zlen (payload r) /\ zlen (payload r) < 65536.
Definition full (n : Z) (r : brec) : Prop := bytes_ok (payload r) /\ b_size r = zlen (payload r) /\ zlen (payload r) < 65536 /\ sized n r.
Lemma from_val : forall d a, 0 <= a <= zlen (dat d) -> sl_from d a = Ok (mkSl (zdrop a (dat d)) (spare d)).
Proof. intros d a H. unfold sl_from, sl_len. replace ((0 <=? a) && (a <=? zlen (dat d))) with true by lia. reflexivity. Qed.
Lemma le64_val : forall d, bytes_ok d -> 8 <= zlen d -> exists x, le64 d = Ok x.
Proof. intros d B H. destruct d as [|a [|b [|c [|e [|f [|g [|h [|i d]]]]]]]]; try (unfold zlen in H; cbn [List.length] in H; lia). eexists. reflexivity. Qed.
Lemma units_safe : forall n raw, 2 * Z.of_nat n <= zlen (dat raw) -> exists us r, units_len n raw = Ok (us, r).
Proof.
  induction n as [|n IH]; intros raw H; cbn [units_len]; [eauto|].
  destruct (dat raw) as [|x [|y l]] eqn:E; try (unfold zlen in H; cbn [List.length] in H; lia). cbn [le16 bind].
  unfold sl_from, sl_len. rewrite E. assert (L : zlen (x :: y :: l) = 2 + zlen l) by (unfold zlen; cbn [List.length]; lia). pose proof (zlen_nonneg _ l).
  replace ((0 <=? 2) && (2 <=? zlen (x :: y :: l))) with true by lia. cbn [bind].
  destruct (IH (mkSl (zdrop 2 (x :: y :: l)) (spare raw))) as (us & r & ->); [cbn [dat]; change (zdrop 2 (x :: y :: l)) with l; lia|]. cbn [bind]. eauto.
Qed.
Lemma land1 : forall x, Z.land x 1 = x mod 2.
Proof. intros. change 1 with (Z.ones 1). rewrite Z.land_ones by lia. reflexivity. Qed.
Lemma top_cons : forall l r, b_type r <> 2057 -> top (r :: l) false 0 = r :: top l false 0.
Proof. intros. cbn [top]. change (0 <? 0) with false. cbv iota. destruct (Z.eqb_spec (b_type r) 2057); [contradiction|reflexivity]. Qed.
Lemma conts_safe : forall n l ucap, Forall (full n) (top l false 0) -> 8224 <= ucap -> safe (string_conts l ucap) (fun _ => True).
Proof.
  induction l as [|r l IH]; intros ucap F U; cbn [string_conts]; [exact I|].
  destruct (Z.eqb_spec (b_type r) RecTypeContinue) as [E|E]; cbn [negb]; [|exact I].
  rewrite top_cons in F by (unfold RecTypeContinue in E; lia). inversion F as [|? ? (B & Sz & _ & Le & (_ & _ & Cn) & _) F']; subst.
  unfold RecTypeContinue in E. rewrite E in Le. change (least 60) with 1 in Le. specialize (Cn E).
  unfold sl_idx. destruct (idx_val _ 0 B ltac:(lia)) as (f & -> & _). cbn [bind]. rewrite from_val by lia. cbn [bind dat]. 
  eapply safe_bind with (P := fun _ => True).
  - destruct (Z.land f 1 =? 0); [exact I|]. unfold sl_len. cbn [dat]. rewrite zlen_zdrop by lia.
    pose proof (Z.div_mod (zlen (payload r) - 1) 2 ltac:(lia)). pose proof (Z.mod_pos_bound (zlen (payload r) - 1) 2 ltac:(lia)).
    replace (ucap <? (zlen (payload r) - 1) / 2) with false by lia.
    destruct (units_safe (Z.to_nat ((zlen (payload r) - 1) / 2)) (mkSl (zdrop 1 (payload r)) (spare (b_data r)))) as (us & rr & ->); [cbn [dat]; rewrite zlen_zdrop by lia; lia|]. exact I.
  - intros t _. eapply safe_bind; [apply IH; auto|]. intros. exact I.
Qed.
Lemma mul_safe : forall w d row col r0 c0 n i s, Forall w16 (wb_xfs w) -> bytes_ok (dat d) -> 0 <= row -> 0 <= col -> 0 <= i -> 4 + (i + Z.of_nat n) * 6 <= zlen (dat d) -> reach_sheet s ->
  safe (mul_rk w s d row col i n) (fun s' => reach_sheet s' /\ (filled s r0 c0 -> filled s' r0 c0)).
Proof.
  intros w d row col r0 c0 n. induction n as [|n IH]; intros i s X B R C I0 L RS; cbn [mul_rk]; [cbn [safe]; auto|].
  rewrite from16_val by lia. cbn [bind]. rewrite from32_val by lia. cbn [bind].
  eapply safe_bind; [apply (put_safe s row (col + i) _ _ r0 c0 RS)|].
  - cbn [good_put]. split; [lia|]. split; [lia|]. split; [apply xf_w16; auto|]. apply rk_good. apply (w32_field (dat d)); auto; lia.
  - intros s1 (A & _ & _ & B1). specialize (IH (i + 1) s1 X B R C ltac:(lia) ltac:(lia) A). destruct (mul_rk w s1 d row col (i + 1) n); cbn [safe] in *; tauto.
Qed.
Lemma merge_safe : forall mr mc r0 c0 n raw s, bytes_ok (dat raw) -> 8 * Z.of_nat n <= zlen (dat raw) -> reach_sheet s ->
  safe (merge_cells s raw mr mc n) (fun s' => reach_sheet s' /\ (filled s r0 c0 -> filled s' r0 c0)).
Proof.
  intros mr mc r0 c0 n. induction n as [|n IH]; intros raw s B L RS; cbn [merge_cells]; [cbn [safe]; auto|].
  rewrite !field16_val by lia. cbn [bind]. rewrite from16_val by lia. cbn [bind]. rewrite from_val by lia. cbn [bind].
  pose proof (w16_field _ 0 B ltac:(lia) ltac:(lia)) as W0. pose proof (w16_field _ 4 B ltac:(lia) ltac:(lia)) as W4. unfold w16 in *.
  eapply safe_bind; [apply (put_all_safe _ s r0 c0 RS); apply region_good; [lia|lia|discriminate]|].
  intros s1 (A & _ & B1). specialize (IH (mkSl (zdrop 8 (dat raw)) (spare raw)) s1). cbn [dat] in IH. specialize (IH (bytes_ok_zdrop _ _ B)). rewrite zlen_zdrop in IH by lia. specialize (IH ltac:(lia) A).
  destruct (merge_cells s1 _ mr mc n); cbn [safe] in *; tauto.
Qed.
Lemma hlink_safe : forall s d mr mc r0 c0, bytes_ok (dat d) -> 8 <= zlen (dat d) -> link_sound d -> reach_sheet s ->
  safe (hlink_rec s d mr mc) (fun s' => reach_sheet s' /\ (filled s r0 c0 -> filled s' r0 c0)).
Proof.
  intros s d mr mc r0 c0 B L LS RS. unfold hlink_rec. rewrite !field16_val by lia. cbn [bind]. rewrite from16_val by lia. cbn [bind].
  destruct (mc <? _); [cbn [safe]; auto|]. destruct (mr <? _); [cbn [safe]; auto|]. rewrite from_val by lia. cbn [bind].
  pose proof (w16_field _ 0 B ltac:(lia) ltac:(lia)) as W0. pose proof (w16_field _ 4 B ltac:(lia) ltac:(lia)) as W4. unfold w16 in *.
  assert (G : forall t lr lc, Forall (fun w : pwrite => match w with (r, c, v, f) => good_put (OPut r c v f) end) (region_writes (field (dat d) 0 2) lr (field (dat d) 4 2) lc (Some (GStr t)))) by (intros; apply region_good; [lia|lia|intros ? [= <-]; eauto]).
  pose proof (link_becomes (zdrop 8 (dat d)) (spare d) (bytes_ok_zdrop _ 8 B)) as LB. unfold link_sound in LS. cbv zeta in LS. destruct (link_extent _ _) as [e| |]; [| |congruence].
  - destruct LB as ([dd l] & ->). match goal with |- safe (put_all s ?ws) _ => pose proof (put_all_safe ws s r0 c0 RS (G _ _ _)) as P; destruct (put_all s ws) end; cbn [safe] in *; tauto.
  - destruct LB as (er & ->). cbn [safe]. auto.
Qed.

Definition inv (st : pst) (ready : bool) : Prop := reach_sheet (p_sheet st) /\ 8224 <= p_ucap st /\ (ready = true -> filled (p_sheet st) (p_row st) (p_col st)).
Lemma formula_safe : forall w s d, Forall w16 (wb_xfs w) -> bytes_ok (dat d) -> 14 <= zlen (dat d) -> reach_sheet s ->
  safe (formula_rec w s d) (fun x => match x with (s', r, c) => reach_sheet s' /\ (has_value (dat d) = true -> filled s' r c) end).
Proof.
  intros w s d X B L RS. unfold formula_rec. rewrite !field16_val by lia. cbn [bind]. rewrite from_val by lia. cbn [bind]. unfold sl_idx. cbn [dat].
  pose proof (w16_field _ 0 B ltac:(lia) ltac:(lia)) as W0. pose proof (w16_field _ 2 B ltac:(lia) ltac:(lia)) as W2. unfold w16 in *.
  pose proof (bytes_ok_zdrop _ 6 B) as B6. assert (L6 : zlen (zdrop 6 (dat d)) = zlen (dat d) - 6) by (rewrite zlen_zdrop; lia).
  destruct (idx_val _ 6 B6 ltac:(lia)) as (x6 & E6 & R6 & F6). destruct (idx_val _ 7 B6 ltac:(lia)) as (x7 & E7 & R7 & F7). destruct (idx_val _ 0 B6 ltac:(lia)) as (x0 & E0 & R0 & F0). destruct (idx_val _ 2 B6 ltac:(lia)) as (x2 & E2 & R2 & F2).
  rewrite E6, E7, E0, E2. cbn [bind]. destruct (le64_val _ B6 ltac:(lia)) as (x & ->). cbn [bind].
  assert (HV : has_value (dat d) = negb ((x6 =? 255) && (x7 =? 255)) || (x0 <? 3)).
  { pose proof (zdrop_uncons _ _ _ _ E6) as Z6. pose proof (zdrop_uncons _ _ _ _ E7) as Z7. pose proof (zdrop_uncons _ _ _ _ E0) as Z0. change (6 + 1) with 7 in Z6. rewrite Z7 in Z6. rewrite zdrop_zdrop in Z6, Z0 by lia.
    unfold has_value. rewrite (field2 (dat d) 12 _ _ _ Z6). unfold field. change (6 + 0) with 6 in Z0. rewrite Z0. change (ztake 1 (x0 :: zdrop (0 + 1) (zdrop 6 (dat d)))) with [x0]. cbn [le_val]. lia. }
  assert (P : forall v f, 0 <= f < 65536 -> good_value v -> safe (put s (field (dat d) 0 2) (field (dat d) 2 2) v f) (fun s' => reach_sheet s' /\ filled s' (field (dat d) 0 2) (field (dat d) 2 2))).
  { intros v f Hf Hg. pose proof (put_safe s (field (dat d) 0 2) (field (dat d) 2 2) v f 0 0 RS) as Q. assert (G : good_put (OPut (field (dat d) 0 2) (field (dat d) 2 2) v f)) by (cbn [good_put]; split; [lia|]; split; [lia|]; split; [lia|exact Hg]). specialize (Q G). destruct (put _ _ _ _ _); cbn [safe] in *; tauto. }
  pose proof (xf_w16 w (field (dat d) 4 2) X) as XF.
  assert (T : forall m, safe m (fun s' => reach_sheet s' /\ (has_value (dat d) = true -> filled s' (field (dat d) 0 2) (field (dat d) 2 2))) -> safe (bind m (fun s0 => Ok (s0, field (dat d) 0 2, field (dat d) 2 2))) (fun x : sheet * Z * Z => let (p, c) := x in let (s', r) := p in reach_sheet s' /\ (has_value (dat d) = true -> filled s' r c))) by (intros m Q; eapply safe_bind; [exact Q|]; intros s1 Q1; exact Q1).
  assert (P2 : forall v f, 0 <= f < 65536 -> good_value v -> safe (put s (field (dat d) 0 2) (field (dat d) 2 2) v f) (fun s' => reach_sheet s' /\ (has_value (dat d) = true -> filled s' (field (dat d) 0 2) (field (dat d) 2 2)))).
  { intros v f Hf Hg. pose proof (P v f Hf Hg) as Q. destruct (put _ _ _ _ _); cbn [safe] in *; tauto. }
  apply T. destruct (Z.eqb_spec x6 255); cbn [negb]; [|apply P2; [lia|apply good_f64]]. destruct (Z.eqb_spec x7 255); cbn [negb]; [|apply P2; [lia|apply good_f64]].
  destruct (Z.eqb_spec x0 0); [apply P2; [lia|apply good_str]|]. destruct (Z.eqb_spec x0 1); [apply P2; [lia|apply good_bool]|]. destruct (Z.eqb_spec x0 2); [apply P2; [lia|apply good_str]|].
  cbn [safe]. split; auto. rewrite HV. intros Q. exfalso. lia.
Qed.
Lemma inv_ret : forall st ready s', inv st ready -> reach_sheet s' -> (filled (p_sheet st) (p_row st) (p_col st) -> filled s' (p_row st) (p_col st)) ->
  inv (mkPst s' (p_row st) (p_col st) (p_ucap st)) ready.
Proof. intros st ready s' (A & B & C) R F. split; [exact R|]. split; [exact B|]. intros E. apply F, C, E. Qed.
Lemma rec_safe : forall w mr mc st r rest ready, Forall w16 (wb_xfs w) -> full (zlen (wb_strings w)) r -> Forall (full (zlen (wb_strings w))) (top rest false 0) ->
  inv st ready -> (b_type r = 519 -> ready = true) ->
  safe (sheet_rec w mr mc st r rest) (fun st' => inv st' (if b_type r =? 6 then has_value (payload r) else ready)).
Proof.
  intros w mr mc st r rest ready X (B & Sz & Lt & Le & (C1 & C2 & C3) & S1 & S2) F IN HR. pose proof IN as (RS & U & FI).
  assert (TP : forall (m : res sheet), safe m (fun s' => reach_sheet s' /\ (filled (p_sheet st) (p_row st) (p_col st) -> filled s' (p_row st) (p_col st))) ->
     safe (bind m (fun s => Ok (mkPst s (p_row st) (p_col st) (p_ucap st)))) (fun st' => inv st' ready)).
  { intros m Q. eapply safe_bind; [exact Q|]. intros s1 (Q1 & Q2). cbn [safe]. apply (inv_ret st ready s1 IN Q1 Q2). }
  assert (PS : forall a b v f, good_put (OPut a b v f) -> safe (put (p_sheet st) a b v f) (fun s' => reach_sheet s' /\ (filled (p_sheet st) (p_row st) (p_col st) -> filled s' (p_row st) (p_col st)))).
  { intros a b v f G. pose proof (put_safe (p_sheet st) a b v f (p_row st) (p_col st) RS G) as Q. destruct (put _ _ _ _ _); cbn [safe] in *; tauto. }
  assert (W : forall a, 0 <= a -> a + 2 <= zlen (payload r) -> 0 <= field (payload r) a 2 < 65536) by (intros; apply (w16_field (payload r)); auto).
  assert (GP : forall v i, 4 <= zlen (payload r) -> good_value v -> good_put (OPut (field (payload r) 0 2) (field (payload r) 2 2) v (xf_fmt w i))).
  { intros v i L4 G. cbn [good_put]. pose proof (W 0 ltac:(lia) ltac:(lia)). pose proof (W 2 ltac:(lia) ltac:(lia)). split; [lia|]. split; [lia|]. split; [apply xf_w16; auto|auto]. }
  unfold sheet_rec. unfold least in Le.
  unfold RecTypeBoolErr, RecTypeMulRk, RecTypeNumber, RecTypeRK, RecTypeFormula, RecTypeString, RecTypeLabelSst, RecTypeHLink, RecTypeMergeCells.
  destruct (Z.eqb_spec (b_type r) 517) as [E|N1].
  { rewrite E. zdec. rewrite !field16_val by lia. cbn [bind]. unfold sl_idx. destruct (idx_val _ 7 B ltac:(lia)) as (x7 & -> & _). cbn [bind]. destruct (idx_val _ 6 B ltac:(lia)) as (x6 & -> & _). cbn [bind].
    apply TP. destruct (x7 =? 0); [apply PS, GP; [lia|apply good_bool]|]. apply PS. cbn [good_put]. pose proof (W 0 ltac:(lia) ltac:(lia)). pose proof (W 2 ltac:(lia) ltac:(lia)). repeat (split; [lia|]). apply good_str. }
  destruct (Z.eqb_spec (b_type r) 189) as [E|N2].
  { rewrite E. zdec. rewrite !field16_val by lia. cbn [bind]. apply TP. pose proof (W 0 ltac:(lia) ltac:(lia)). pose proof (W 2 ltac:(lia) ltac:(lia)).
    rewrite Sz. unfold u16. rewrite Z.mod_small by lia. pose proof (Z.div_mod (zlen (payload r) - 6) 6 ltac:(lia)). pose proof (Z.mod_pos_bound (zlen (payload r) - 6) 6 ltac:(lia)).
    apply mul_safe; auto; lia. }
  destruct (Z.eqb_spec (b_type r) 515) as [E|N3].
  { rewrite E. zdec. rewrite !field16_val by lia. cbn [bind]. unfold from64. rewrite from_val by lia. cbn [bind dat]. destruct (le64_val (zdrop 6 (payload r))) as (x & ->); [apply bytes_ok_zdrop; auto|rewrite zlen_zdrop; lia|]. cbn [bind].
    apply TP, PS, GP; [lia|apply good_f64]. }
  destruct (Z.eqb_spec (b_type r) 638) as [E|N4].
  { rewrite E. zdec. rewrite !field16_val by lia. cbn [bind]. rewrite from16_val by lia. cbn [bind]. rewrite from32_val by lia. cbn [bind].
    apply TP, PS, GP; [lia|]. apply rk_good. apply (w32_field (payload r)); auto; lia. }
  destruct (Z.eqb_spec (b_type r) 6) as [E|N5].
  { eapply safe_bind; [apply (formula_safe w (p_sheet st) (b_data r) X B ltac:(lia) RS)|]. intros [[s1 a] b] (Q1 & Q2). cbn [safe]. split; [exact Q1|]. split; [exact U|exact Q2]. }
  destruct (Z.eqb_spec (b_type r) 519) as [E|N6].
  { specialize (FI (HR E)).
    assert (SH : exists t1 u, string_head (b_data r) (p_ucap st) = Ok (t1, u) /\ 8224 <= u).
    { unfold string_head. rewrite !field16_val by lia. cbn [bind]. unfold sl_idx. destruct (idx_val _ 2 B ltac:(lia)) as (fl & -> & _ & Ef). cbn [bind]. rewrite from_val by lia. cbn [bind dat].
      rewrite land1. destruct (Z.eqb_spec (fl mod 2) 0); [eauto|]. pose proof (Z.mod_pos_bound fl 2 ltac:(lia)). specialize (C1 E ltac:(rewrite Ef; lia)). pose proof (W 0 ltac:(lia) ltac:(lia)).
      destruct (units_safe (Z.to_nat (field (payload r) 0 2)) (mkSl (zdrop 3 (payload r)) (spare (b_data r)))) as (us & rr & ->); [cbn [dat]; rewrite zlen_zdrop by lia; lia|].
      cbn [bind]. do 2 eexists. split; [reflexivity|lia]. }
    destruct SH as (t1 & u & -> & Hu). cbn [bind]. eapply safe_bind; [apply (conts_safe (zlen (wb_strings w)) rest u F Hu)|]. intros t2 _.
    eapply safe_bind; [apply (set_safe (p_sheet st) (p_row st) (p_col st) _ RS FI)|]. intros s1 (Q1 & _ & Q2). cbn [safe]. split; [exact Q1|]. split; [exact Hu|auto]. }
  destruct (Z.eqb_spec (b_type r) 253) as [E|N7].
  { rewrite !field16_val by lia. cbn [bind]. rewrite from32_val by lia. cbn [bind]. destruct (Z.ltb_spec (zlen (wb_strings w)) (field (payload r) 6 4)); [reflexivity|].
    pose proof (w32_field _ 6 B ltac:(lia) ltac:(lia)) as W6. unfold w32 in W6. specialize (S1 E). destruct (idx_in _ (wb_strings w) (field (payload r) 6 4) ltac:(lia)) as (str & ->). cbn [bind].
    apply TP. destruct (str_eqb str []); [cbn [safe]; auto|]. apply PS, GP; [lia|apply good_str]. }
  destruct (Z.eqb_spec (b_type r) 440) as [E|N8].
  { apply TP. apply hlink_safe; auto. }
  destruct (Z.eqb_spec (b_type r) 229) as [E|N9].
  { rewrite !field16_val by lia. cbn [bind]. rewrite from_val by lia. cbn [bind]. specialize (C2 E). pose proof (W 0 ltac:(lia) ltac:(lia)).
    apply TP. apply merge_safe; auto; cbn [dat]; [apply bytes_ok_zdrop; auto|]. rewrite zlen_zdrop by lia. lia. }
  exact IN.
Qed.

(** ** all records *)
Lemma top_incl : forall l first depth r, In r (top l first depth) -> In r l.
Proof.
  induction l as [|x l IH]; intros first depth r I; cbn [top] in I; [contradiction|]. destruct (0 <? depth); [right; eauto|]. destruct (b_type x =? 2057); [right; eauto|].
  destruct I as [->|I]; [left; auto|right; eauto].
Qed.
Lemma recs_safe : forall w mr mc l first depth st ready, Forall w16 (wb_xfs w) -> 0 <= depth -> Forall (full (zlen (wb_strings w))) (top l first depth) -> texts_follow (top l first depth) ready ->
  inv st ready -> safe (sheet_recs w mr mc l first depth st) (fun st' => reach_sheet (p_sheet st')).
Proof.
  intros w mr mc l. induction l as [|r l IH]; intros first depth st ready X D F T IN; cbn [sheet_recs]; [exact (proj1 IN)|]. cbn [top] in F, T.
  unfold RecTypeBOF, RecTypeEOF. destruct (Z.ltb_spec 0 depth).
  { eapply (IH false); eauto. destruct (b_type r =? 10); lia. }
  replace depth with 0 in * by lia. destruct (Z.eqb_spec (b_type r) 2057) as [E|E].
  { change (0 + 1) with 1. eapply (IH false); eauto. destruct first; lia. }
  inversion F; subst. cbn [texts_follow] in T.
  eapply safe_bind; [apply (rec_safe w mr mc st r l ready X H2 H3 IN)|].
  - intros E6. rewrite E6 in T. change (519 =? 6) with false in T. cbv iota in T. tauto.
  - intros st' IN'. destruct (b_type r =? 6); eapply IH; eauto; try lia; tauto.
Qed.
Lemma dims_safe : forall n l first depth s mr mc, 0 <= depth -> Forall (full n) (top l first depth) -> reach_sheet s ->
  (filter is_dim (top l first depth) = [] \/ sh_nrows s = 0 /\ sh_ncols s = 0 /\ one_dimension (top l first depth)) ->
  safe (scan_dims l first depth s mr mc) (fun o => match o with None => True | Some (s', _, _) => reach_sheet s' end).
Proof.
  intros n l. induction l as [|r l IH]; intros first depth s mr mc D F RS OD; cbn [scan_dims]; [exact RS|]. cbn [top] in F, OD.
  unfold RecTypeBOF, RecTypeEOF, RecTypeWsBool, RecTypeDimensions. destruct (Z.ltb_spec 0 depth).
  { apply IH; auto. destruct (b_type r =? 10); lia. }
  replace depth with 0 in * by lia. destruct (Z.eqb_spec (b_type r) 2057) as [E|E].
  { change (0 + 1) with 1. apply IH; auto. destruct first; lia. }
  inversion F as [|? ? (B & Sz & Lt & Le & _) F']; subst. unfold one_dimension in OD.
  assert (FD : filter is_dim (r :: top l false 0) = if b_type r =? 512 then r :: filter is_dim (top l false 0) else filter is_dim (top l false 0)) by reflexivity. rewrite FD in OD. clear FD.
  destruct (Z.eqb_spec (b_type r) 129) as [E1|E1].
  { rewrite E1 in *. change (129 =? 512) with false in OD. cbv iota in OD. change (least 129) with 2 in Le. unfold sl_idx. destruct (idx_val _ 1 B ltac:(lia)) as (x & -> & _). cbn [bind]. destruct (negb _); [exact I|]. apply IH; auto; lia. }
  destruct (Z.eqb_spec (b_type r) 512) as [E2|E2]; [|apply IH; auto; lia].
  rewrite E2 in Le. change (least 512) with 12 in Le. rewrite !field32_val by lia. cbn [bind]. rewrite !field16_val by lia. cbn [bind].
  destruct OD as [OD|(N1 & N2 & OD)]; [discriminate|].
  pose proof (w32_field _ 4 B ltac:(lia) ltac:(lia)) as W1. pose proof (w16_field _ 10 B ltac:(lia) ltac:(lia)) as W2. unfold w32, w16 in *.
  apply IH; [lia|auto|apply rs_resize; auto; lia|]. left. cbn [List.length] in OD. destruct (filter is_dim (top l false 0)); auto. cbn [List.length] in OD. lia.
Qed.

Definition sheet_result (r : res (option sheet)) : Prop :=
  match r with
  | Ok None => True
  | Ok (Some s) => reach_sheet s
  | Err e => e = ESstIndex
  | Panic | NoFuel => False
  end.
Lemma parse_safe : forall w ss l, reach_fx (wb_fx w) -> Forall w16 (wb_xfs w) -> idx (wb_streams w) ss = Ok l ->
  Forall rec_wf l -> sheet_sized (zlen (wb_strings w)) l -> sheet_result (parse_sheet w ss).
Proof.
  intros w ss l RF X El WF (F0 & T & OD). unfold parse_sheet. rewrite El. cbn [bind].
  assert (F : Forall (full (zlen (wb_strings w))) (top l true 0)).
  { rewrite Forall_forall in *. intros r I. destruct (WF r (top_incl _ _ _ _ I)) as (A & B & C). split; [exact A|]. split; [exact B|]. split; [exact C|]. apply F0, I. }
  pose proof (dims_safe _ l true 0 (empty_sheet (wb_fx w)) 0 0 ltac:(lia) F (rs_new _ RF) (or_intror (conj eq_refl (conj eq_refl OD)))) as D.
  destruct (scan_dims _ _ _ _ _ _) as [[[[s mr] mc]|]|e| |]; cbn [bind safe sheet_result] in *; auto.
  pose proof (recs_safe w mr mc l true 0 (mkPst s 0 0 8224) false X ltac:(lia) F T) as R.
  assert (IN : inv (mkPst s 0 0 8224) false) by (split; [exact D|split; [cbn [p_ucap]; lia|discriminate]]). specialize (R IN).
  destruct (sheet_recs _ _ _ _ _ _ _); cbn [bind safe sheet_result] in *; auto.
Qed.

(** ** what holds for every loaded workbook *)
Lemma bytes_nth : forall l i, bytes_ok l -> 0 <= nth i l 0 < 256.
Proof. intros l i B. destruct (nth_in_or_default i l 0) as [I| ->]; [|lia]. unfold bytes_ok in B. rewrite Forall_forall in B. apply B, I. Qed.
Lemma upd_bytes : forall l i x, bytes_ok l -> 0 <= x < 256 -> bytes_ok (upd l i x).
Proof. induction l as [|y l IH]; intros [|i] x B H; cbn [upd]; auto; inversion B; subst; constructor; auto. apply IH; auto. Qed.
Lemma swap_bytes : forall l i j, bytes_ok l -> bytes_ok (swap_ l i j).
Proof. intros. unfold swap_, at_. repeat apply upd_bytes; auto; apply bytes_nth; auto. Qed.
Lemma schedule_bytes : forall n i key s j, bytes_ok s -> bytes_ok (rc4_schedule n i key s j).
Proof. induction n; intros; cbn [rc4_schedule]; auto. apply IHn, swap_bytes; auto. Qed.
Lemma rc4_new_bytes : forall key, bytes_ok (r_s (rc4_new key)).
Proof. intros. unfold rc4_new. cbn [r_s]. apply schedule_bytes. apply Forall_forall. intros x I. apply in_map_iff in I. destruct I as (k & <- & I). apply in_seq in I. lia. Qed.
Lemma lxor_byte : forall a b, 0 <= a < 256 -> 0 <= b < 256 -> 0 <= Z.lxor a b < 256.
Proof.
  intros a b Ha Hb. split; [apply Z.lxor_nonneg; lia|]. destruct (Z.eq_dec (Z.lxor a b) 0) as [->|N]; [lia|]. apply (Z.log2_lt_cancel _ 256). change (Z.log2 256) with 8.
  assert (0 <= Z.lxor a b) by (apply Z.lxor_nonneg; lia). pose proof (Z.log2_lxor a b ltac:(lia) ltac:(lia)) as L. 
  assert (H1 : forall x, 0 <= x < 256 -> Z.log2 x < 8). { intros x Hx. destruct (Z.eq_dec x 0) as [->|]; [reflexivity|]. apply Z.log2_lt_pow2; [lia|]. change (2 ^ 8) with 256. lia. }
  pose proof (H1 a Ha). pose proof (H1 b Hb). lia.
Qed.
Lemma xor_bytes : forall src c, bytes_ok src -> bytes_ok (r_s c) -> bytes_ok (fst (rc4_xor c src)).
Proof.
  induction src as [|b src IH]; intros c B S; cbn [rc4_xor fst]; [constructor|]. unfold rc4_next. inversion B; subst.
  match goal with |- context [rc4_xor ?c0 src] => specialize (IH c0 H2); destruct (rc4_xor c0 src) as [o c1] end. cbn [fst r_s] in *. constructor; [|apply IH; apply swap_bytes; auto].
  apply lxor_byte; auto. apply bytes_nth. apply swap_bytes; auto.
Qed.
Definition w_ok (d : rc4w) : Prop := bytes_ok (w_bytes d) /\ bytes_ok (w_buf d).
Lemma start_ok : forall d d' c, w_ok d -> start_block d = Ok (d', c) -> w_ok d' /\ bytes_ok (r_s c) /\ w_bytes d' = w_bytes d /\ w_buf d' = w_buf d.
Proof.
  intros d d' c (A & B) H. unfold start_block in H. destruct (bind_inv _ _ _ _ _ H) as (d1 & E & H1). clear H.
  assert (Q : w_bytes d1 = w_bytes d /\ w_buf d1 = w_buf d).
  { destruct (w_key d); [injection E as <-; auto|]. unfold set_password in E. destruct (bind_inv _ _ _ _ _ E) as (k & _ & E2). injection E2 as <-. auto. }
  destruct Q as (Q1 & Q2). destruct (w_key d1); [|discriminate]. destruct (bind_inv _ _ _ _ _ H1) as (k5 & _ & E2). injection E2 as <- <-.
  split; [split; congruence|]. split; [apply rc4_new_bytes|auto].
Qed.
Lemma zeros_ok : forall n, bytes_ok (repeat 0 n).
Proof. intros. apply Forall_forall. intros x I. apply repeat_spec in I. lia. Qed.
Lemma flush_ok : forall d d', w_ok d -> w_flush d = Ok d' -> w_ok d'.
Proof.
  intros d d' (A & B) H. unfold w_flush in H. cbn [w_offset w_bytes w_buf w_block w_key w_salt] in H. destruct (negb _); [discriminate|].
  destruct (bind_inv _ _ _ _ _ H) as ([d1 c] & E & H1). clear H.
  match type of E with start_block ?dd = _ => assert (W : w_ok dd) end.
  { split; [|exact B]. cbn [w_bytes]. apply bytes_ok_app. split; [apply bytes_ok_ztake; auto|apply zeros_ok]. }
  destruct (start_ok _ _ _ W E) as ((W1 & W2) & C & E1 & E2). pose proof (xor_bytes (w_bytes d1) c W1 C) as X. destruct (rc4_xor c (w_bytes d1)) as [out c2]. cbn [fst] in X. injection H1 as <-.
  split; cbn [w_bytes w_buf]; auto. apply bytes_ok_app. split; [auto|apply bytes_ok_ztake; auto].
Qed.
Lemma write_ok : forall fuel data d d', w_ok d -> bytes_ok data -> write_loop fuel d data = Ok d' -> w_ok d'.
Proof.
  induction fuel as [|fuel IH]; intros data d d' W D H; cbn [write_loop] in H; (destruct (zlen data <=? 0); [injection H as <-; auto|]); [discriminate|].
  destruct (1024 <? w_offset d); [discriminate|]. destruct (bind_inv _ _ _ _ _ H) as (d1 & E & H1). clear H. eapply IH; [|apply bytes_ok_zdrop, D|exact H1].
  cbn [w_offset] in E.
  assert (W2 : w_ok (mkW (w_block d) (w_offset d + Z.min (1024 - w_offset d) (zlen data)) (ztake (w_offset d) (w_bytes d) ++ ztake (Z.min (1024 - w_offset d) (zlen data)) data ++ zdrop (w_offset d + Z.min (1024 - w_offset d) (zlen data)) (w_bytes d)) (w_buf d) (w_key d) (w_salt d))).
  { destruct W as (A & B). split; cbn [w_bytes w_buf]; auto. apply bytes_ok_app. split; [apply bytes_ok_ztake; auto|]. apply bytes_ok_app. split; [apply bytes_ok_ztake; auto|apply bytes_ok_zdrop; auto]. }
  destruct (1024 <=? _); [destruct (negb _); [discriminate|]; eapply flush_ok; eauto|injection E as <-; exact W2].
Qed.
Lemma range_bytes : forall raw a b s, bytes_ok (dat raw) -> bytes_ok (spare raw) -> sl_range raw a b = Ok s -> bytes_ok (dat s).
Proof.
  intros raw a b s A B H. unfold sl_range in H. destruct (_ && _); [|discriminate]. injection H as <-. cbn [dat]. apply bytes_ok_ztake, bytes_ok_zdrop. unfold sl_full. apply bytes_ok_app; auto.
Qed.
Ltac dbind H := match type of H with bind ?m _ = Ok _ => let E := fresh "E" in let x := fresh "x" in destruct m as [x| | |] eqn:E; try discriminate H; cbn [bind] in H end.
Lemma zeros_to_ok : forall n z, zeros_to n = Ok z -> bytes_ok z.
Proof. intros n z H. unfold zeros_to in H. destruct (n <=? 8224); [|discriminate]. injection H as <-. apply zeros_ok. Qed.
Lemma decrypt_ok : forall fuel raw pos dec ovs dec' ovs', bytes_ok (dat raw) -> bytes_ok (spare raw) -> w_ok dec -> Forall (fun o => bytes_ok (ov_data o)) ovs ->
  decrypt_loop fuel raw pos dec ovs = Ok (dec', ovs') -> w_ok dec' /\ Forall (fun o => bytes_ok (ov_data o)) ovs'.
Proof.
  induction fuel as [|fuel IH]; intros raw pos dec ovs dec' ovs' A B W O H; cbn [decrypt_loop] in H; [discriminate|]. dbind H.
  destruct (negb _); [injection H as <- <-; auto|]. dbind H. dbind H. dbind H. dbind H. dbind H. dbind H.
  assert (W1 : w_ok x5) by (eapply write_ok; [eapply write_ok; [exact W|apply put16_ok|exact E4]|apply put16_ok|exact E5]). clear E4 E5.
  destruct (bind_inv _ _ _ _ _ H) as ([[[od p2] d2] tc] & E5 & H2). clear H.
  assert (Q : bytes_ok od /\ w_ok d2).
  { destruct (exempt x1).
    - dbind E5. dbind E5. dbind E5. injection E5 as <- <- <- <-. split; [eapply range_bytes; [exact A|exact B|eassumption]|]. eapply write_ok; [exact W1|eapply zeros_to_ok; eassumption|unfold w_write in *; eassumption].
    - destruct (x1 =? RecTypeBoundSheet8).
      + dbind E5. dbind E5. dbind E5. injection E5 as <- <- <- <-. split; [eapply range_bytes; [exact A|exact B|eassumption]|]. eapply write_ok; [exact W1|eapply zeros_to_ok; eassumption|unfold w_write in *; eassumption].
      + injection E5 as <- <- <- <-. split; [constructor|auto]. }
  destruct Q as (Q1 & Q2). cbv beta iota in H2. destruct (bind_inv _ _ _ _ _ H2) as ([p3 d3] & E6 & H3). clear H2 E5.
  assert (Q3 : w_ok d3).
  { destruct (0 <? tc); [|injection E6 as <- <-; auto]. dbind E6. dbind E6. injection E6 as <- <-. eapply write_ok; [exact Q2| |unfold w_write in *; eassumption]. eapply range_bytes; [exact A|exact B|eassumption]. }
  cbv beta iota in H3. eapply IH; [exact A|exact B|exact Q3| |exact H3]. apply Forall_app. split; auto.
Qed.
Lemma copy_ok : forall l i src l', bytes_ok l -> bytes_ok src -> copy_at l i src = Ok l' -> bytes_ok l'.
Proof. intros l i src l' A B H. unfold copy_at in H. destruct (_ && _); [|discriminate]. injection H as <-. apply bytes_ok_app. split; [apply bytes_ok_ztake; auto|]. apply bytes_ok_app. split; [apply bytes_ok_ztake; auto|apply bytes_ok_zdrop; auto]. Qed.
Lemma put16_at_ok : forall l i x l', bytes_ok l -> put16_at l i x = Ok l' -> bytes_ok l'.
Proof. intros l i x l' A H. unfold put16_at in H. destruct (_ && _); [|discriminate]. eapply copy_ok; [exact A|apply put16_ok|exact H]. Qed.
Lemma overlays_ok : forall os l l', bytes_ok l -> Forall (fun o => bytes_ok (ov_data o)) os -> apply_overlays l os = Ok l' -> bytes_ok l'.
Proof.
  induction os as [|o os IH]; intros l l' B F H; cbn [apply_overlays] in H; [injection H as <-; auto|]. dbind H. inversion F; subst. eapply IH; [|exact H3|exact H].
  unfold apply_overlay in E. dbind E. dbind E. assert (bytes_ok x1) by (eapply put16_at_ok; [eapply put16_at_ok; [exact B|exact E0]|exact E1]).
  destruct (0 <? _); [eapply copy_ok; [|exact H2|exact E]; auto|injection E as <-; auto].
Qed.
Lemma decrypt_stream_bytes : forall raw dec l, bytes_ok (dat raw) -> bytes_ok (spare raw) -> w_ok dec -> decrypt_stream raw dec = Ok l -> bytes_ok l.
Proof.
  intros raw dec l A B W H. unfold decrypt_stream in H. destruct (bind_inv _ _ _ _ _ H) as ([d o] & E & H1). clear H. dbind H1.
  destruct (decrypt_ok _ _ _ _ _ _ _ A B W ltac:(constructor) E) as (Q1 & Q2). eapply overlays_ok; [|exact Q2|exact H1]. apply (flush_ok _ _ Q1 E0).
Qed.
Lemma basic_ok : forall data d, new_basic_rc4 data = Ok d -> w_ok d.
Proof.
  intros data d H. unfold new_basic_rc4 in H. destruct (zlen data =? 0); [discriminate|]. destruct (zlen data <? 52); [discriminate|]. dbind H. destruct (negb _); [discriminate|]. destruct (negb _); [discriminate|].
  unfold w_verify, w_reset in H. cbn [w_bytes w_key w_salt] in H. destruct (bind_inv _ _ _ _ _ H) as ([d1 c] & E1 & H1). clear H.
  match type of E1 with start_block ?dd = _ => assert (W0 : w_ok dd) by (split; [apply zeros_ok|constructor]) end. destruct (start_ok _ _ _ W0 E1) as (W & _). destruct (rc4_xor c _) as [t1 c1]. destruct (rc4_xor c1 _) as [t2 c2]. destruct (list_eq_dec _ _ _); [|discriminate]. injection H1 as <-. exact W.
Qed.

(** the first pass *)
Definition bst_ok (st : bst) : Prop :=
  Forall (Forall rec_wf) (st_streams st) /\ forall p k, zfind p (st_map st) = Some k -> 0 <= k < zlen (st_streams st).
Lemma le16_w16 : forall l x, bytes_ok l -> le16 l = Ok x -> w16 x.
Proof. intros [|a [|b l]] x B H; try discriminate. injection H as <-. inversion B; subst. inversion H2; subst. unfold w16. lia. Qed.
Lemma next_ok : forall raw r no, bytes_ok (dat raw) -> bytes_ok (spare raw) -> next_record raw = Ok (r, no) -> rec_wf r.
Proof.
  intros raw r no A B H. unfold next_record in H. destruct (sl_len raw <? 4); [discriminate|]. dbind H. dbind H. dbind H. destruct (sl_len x1 <? x0); [discriminate|]. dbind H. injection H as <- _.
  pose proof (le16_w16 _ _ (bytes_ok_zdrop _ 2 A) E0) as W. unfold w16 in W. unfold rec_wf. cbn [b_size b_data]. split; [eapply range_bytes; [exact A|exact B|exact E2]|].
  unfold sl_range in E2. destruct ((0 <=? 4) && (4 <=? u16 (4 + x0)) && (u16 (4 + x0) <=? zlen (sl_full raw))) eqn:C; [|discriminate]. injection E2 as <-. cbn [dat].
  assert (u16 (4 + x0) = 4 + x0).
  { unfold u16 in *. destruct (Z.ltb_spec (4 + x0) 65536); [apply Z.mod_small; lia|]. exfalso. replace ((4 + x0) mod 65536) with (x0 - 65532) in C; [lia|]. apply (Z.mod_unique_pos _ _ 1); lia. }
  rewrite H in *. rewrite zlen_ztake by (rewrite zlen_zdrop; lia). lia.
Qed.
Lemma set_idx_forall : forall A (P : A -> Prop) l i x l', Forall P l -> P x -> set_idx l i x = Ok l' -> Forall P l' /\ zlen l' = zlen l.
Proof.
  intros A P l i x l' F Px H. unfold set_idx in H. destruct (_ && _); [|discriminate]. injection H as <-. generalize (Z.to_nat i). intros n. split.
  - revert n. induction F; intros [|n]; cbn [upd]; auto.
  - unfold zlen. f_equal. clear F. revert n. induction l as [|y l IH]; intros [|n]; cbn [upd List.length]; auto.
Qed.
Lemma enter_ok : forall st r, bst_ok st -> bst_ok (enter st r).
Proof.
  intros st r (A & B). unfold enter. destruct (b_type r =? RecTypeEOF); [split; auto|]. destruct (b_type r =? RecTypeBOF); [|split; auto]. destruct (st_nest st =? 0); [|split; auto].
  split; cbn [st_streams st_map].
  - apply Forall_app. split; auto.
  - intros p k. unfold zput. cbn [zfind]. rewrite zlen_app. change (zlen [@nil brec]) with 1. pose proof (zlen_nonneg _ (st_streams st)). destruct (p =? st_pos st); [intros [= <-]; lia|]. intros H0. apply B in H0. lia.
Qed.
Lemma store_ok : forall st r st', bst_ok st -> rec_wf r -> store st r = Ok st' -> bst_ok st'.
Proof.
  intros st r st' (A & B) W H. unfold store in H. dbind H. dbind H. injection H as <-. assert (Wx : Forall rec_wf x). { unfold idx in E. destruct (0 <=? st_sub st); [|discriminate]. destruct (nth_error (st_streams st) (Z.to_nat (st_sub st))) eqn:N; [|discriminate]. injection E as <-. rewrite Forall_forall in A. apply A. eapply nth_error_In; eauto. }
  assert (Wr : Forall rec_wf (x ++ [r])) by (apply Forall_app; auto). destruct (set_idx_forall _ (Forall rec_wf) _ _ _ _ A Wr E0) as (Q1 & Q2). split; cbn [st_streams st_map]; auto. intros. rewrite Q2. eauto.
Qed.
Lemma split_ok : forall fuel raw b st st', bytes_ok (dat raw) -> bytes_ok (spare raw) -> bst_ok st -> split_loop fuel raw b st = Ok (LDone st') -> bst_ok st'.
Proof.
  induction fuel as [|fuel IH]; intros raw b st st' A B S H; cbn [split_loop] in H; [discriminate|].
  destruct (next_record raw) as [[r no]|e| |] eqn:E; try discriminate.
  - dbind H. destruct (_ && _); [discriminate|]. dbind H. assert (A1 : bytes_ok (dat x) /\ bytes_ok (spare x)) by (unfold sl_from in E0; destruct (_ && _); [|discriminate]; injection E0 as <-; split; [apply bytes_ok_zdrop; exact A|exact B]).
    apply (IH x b x0); [tauto|tauto| |exact H]. eapply store_ok; [|eapply next_ok; [exact A|exact B|exact E]|exact E1]. apply enter_ok; auto.
  - destruct e; try discriminate; injection H as <-; auto.
Qed.
Lemma bst0_ok : bst_ok bst0.
Proof. split; [constructor|]. intros p k H. discriminate. Qed.
Lemma split_workbook_ok : forall raw sp2 st, bytes_ok (dat raw) -> bytes_ok (spare raw) -> bytes_ok sp2 -> split_workbook raw sp2 = Ok st -> bst_ok st.
Proof.
  intros raw sp2 st A B C H. unfold split_workbook in H. dbind H. destruct x as [st1|data]; [injection H as <-; eapply split_ok; [exact A|exact B|apply bst0_ok|exact E]|].
  dbind H. destruct (x =? 1); [|destruct (_ || _); discriminate]. dbind H. dbind H. dbind H. dbind H. destruct x3 as [st1|]; [|discriminate]. injection H as <-.
  eapply (split_ok _ (mkSl x2 sp2) _ bst0); [|exact C|apply bst0_ok|exact E4]. cbn [dat]. eapply decrypt_stream_bytes; [exact A|exact B|eapply basic_ok; eauto|exact E3].
Qed.

(** the second pass *)
Definition wb_ok (w w' : wbook) : Prop := reach_fx (wb_fx w') /\ Forall w16 (wb_xfs w') /\ wb_streams w' = wb_streams w /\ wb_map w' = wb_map w.
Lemma load_rec_ok : forall w r rest w', rec_wf r -> reach_fx (wb_fx w) -> Forall w16 (wb_xfs w) -> load_rec w r rest = Ok w' -> wb_ok w w'.
Proof.
  intros w r rest w' (B & _ & _) RF X H. assert (OK : wb_ok w w) by (split; [|split]; auto). unfold load_rec in H.
  destruct (sl_len _ =? 0); [injection H as <-; auto|].
  destruct (_ =? RecTypeSST). { dbind H. injection H as <-. exact OK. }
  destruct (_ =? RecTypeContinue); [injection H as <-; auto|]. destruct (_ =? RecTypeEOF); [injection H as <-; auto|].
  destruct (_ =? RecTypeBOF). { dbind H. injection H as <-. exact OK. }
  destruct (_ =? RecTypeCodePage). { dbind H. injection H as <-. exact OK. }
  destruct (_ =? RecTypeDate1904). { dbind H. injection H as <-. exact OK. }
  destruct (_ =? RecTypeFormat). { dbind H. dbind H. destruct (bind_inv _ _ _ _ _ H) as ([code z] & _ & H1). injection H1 as <-. split; [apply rf_add; auto|split; auto]. }
  destruct (_ =? RecTypeXF).
  { dbind H. dbind H. injection H as <-. split; [auto|split; [|auto]]. cbn [wb_xfs]. apply Forall_app. split; auto. constructor; [|constructor]. eapply le16_w16; [|exact E0]. unfold sl_from in E. destruct (_ && _); [|discriminate]. injection E as <-. apply bytes_ok_zdrop. exact B. }
  destruct (_ =? RecTypeBoundSheet8). { dbind H. dbind H. dbind H. dbind H. dbind H. destruct (bind_inv _ _ _ _ _ H) as ([nm z] & _ & H1). injection H1 as <-. exact OK. }
  injection H as <-. exact OK.
Qed.
Lemma load_recs_ok : forall l w w', Forall rec_wf l -> reach_fx (wb_fx w) -> Forall w16 (wb_xfs w) -> load_recs w l = Ok w' -> wb_ok w w'.
Proof.
  induction l as [|r l IH]; intros w w' F RF X H; cbn [load_recs] in H; [injection H as <-; split; [|split]; auto|]. dbind H. inversion F; subst.
  destruct (load_rec_ok _ _ _ _ H2 RF X E) as (A & B & C & D). destruct (IH _ _ H3 A B H) as (A1 & B1 & C1 & D1). repeat split; auto; congruence.
Qed.
Lemma load_streams_ok : forall ss w w', Forall (Forall rec_wf) ss -> reach_fx (wb_fx w) -> Forall w16 (wb_xfs w) -> load_streams w ss = Ok w' -> wb_ok w w'.
Proof.
  induction ss as [|l ss IH]; intros w w' F RF X H; cbn [load_streams] in H; [injection H as <-; split; [|split]; auto|]. dbind H. inversion F; subst.
  destruct (load_recs_ok _ _ _ H2 RF X E) as (A & B & C & D). destruct (IH _ _ H3 A B H) as (A1 & B1 & C1 & D1). repeat split; auto; congruence.
Qed.
Lemma loaded_ok : forall raw sp2 w, bytes_ok (dat raw) -> bytes_ok (spare raw) -> bytes_ok sp2 -> load_workbook raw sp2 = Ok w ->
  reach_fx (wb_fx w) /\ Forall w16 (wb_xfs w) /\ Forall (Forall rec_wf) (wb_streams w) /\ (forall p k, zfind p (wb_map w) = Some k -> 0 <= k < zlen (wb_streams w)) /\ (wb_sheets w <> [] -> wb_streams w <> []).
Proof.
  intros raw sp2 w A B C H. unfold load_workbook in H. dbind H. destruct (split_workbook_ok _ _ _ A B C E) as (S1 & S2).
  destruct (load_streams_ok (st_streams x) (new_wbook x) w S1 rf_new (Forall_nil _) H) as (Q1 & Q2 & Q3 & Q4). rewrite Q3, Q4. cbn [new_wbook wb_streams wb_map]. repeat split; auto; try (eapply S2; eauto).
  intros N E0. rewrite E0 in H. cbn [load_streams] in H. injection H as <-. apply N. reflexivity.
Qed.

(** Get on a workbook opened from any bytes: if the records of each substream are long enough,
    it gives a sheet, no sheet, or one of two errors. *)
Theorem C85_get : forall raw sp2 w name, bytes_ok (dat raw) -> bytes_ok (spare raw) -> bytes_ok sp2 -> load_workbook raw sp2 = Ok w ->
  Forall (sheet_sized (zlen (wb_strings w))) (wb_streams w) ->
  match wb_get w name with
  | Ok None => True
  | Ok (Some s) => reach_sheet s
  | Err e => e = ESstIndex \/ e = ESheetNotFound
  | Panic | NoFuel => False
  end.
Proof.
  intros raw sp2 w name A B C H F. destruct (loaded_ok _ _ _ A B C H) as (RF & X & WF & MP & NE). unfold wb_get.
  assert (P : forall k, 0 <= k < zlen (wb_streams w) -> sheet_result (parse_sheet w k)).
  { intros k Hk. destruct (idx_in _ (wb_streams w) k Hk) as (l & El). apply (parse_safe w k l RF X El).
    - unfold idx in El. destruct (0 <=? k); [|discriminate]. destruct (nth_error _ _) eqn:N; [|discriminate]. injection El as <-. rewrite Forall_forall in WF. apply WF. eapply nth_error_In; eauto.
    - unfold idx in El. destruct (0 <=? k); [|discriminate]. destruct (nth_error _ _) eqn:N; [|discriminate]. injection El as <-. rewrite Forall_forall in F. apply F. eapply nth_error_In; eauto. }
  assert (Z0 : wb_sheets w <> [] -> 0 <= 0 < zlen (wb_streams w)) by (intros N; apply NE in N; destruct (wb_streams w); [congruence|]; unfold zlen; cbn [List.length]; lia).
  assert (G : forall l, (l <> [] -> 0 <= 0 < zlen (wb_streams w)) -> match get_loop w l name with Ok None => True | Ok (Some s) => reach_sheet s | Err e => e = ESstIndex \/ e = ESheetNotFound | Panic | NoFuel => False end).
  { induction l as [|s l IH]; intros Hl; cbn [get_loop]; [auto|]. destruct (str_eqb (bs_name s) name).
    - assert (Q : sheet_result (parse_sheet w (match zfind (bs_pos s) (wb_map w) with Some k => k | None => 0 end))) by (destruct (zfind _ _) eqn:Ez; [apply P; eapply MP; eauto|apply P, Hl; discriminate]).
      unfold sheet_result in Q. destruct (parse_sheet _ _) as [[s0|]|e| |]; auto.
    - apply IH. intros _. apply Hl. discriminate. }
  apply G. exact Z0.
Qed.

(** ** opening *)
Definition mild {A} (r : res A) (P : A -> Prop) : Prop := match r with Ok x => P x | Err e => e = EFileVersion \/ e = EBiffVersion | Panic | NoFuel => False end.
Lemma units_cap_safe : forall n raw, 2 * Z.of_nat n <= zlen (dat raw) -> exists us, units_cap n raw = Ok us.
Proof.
  induction n as [|n IH]; intros raw H; cbn [units_cap]; [eauto|]. unfold sl_to. destruct (range_val raw 0 2 ltac:(lia) ltac:(lia) ltac:(lia)) as (sp & E). change (0 + 2) with 2 in E. rewrite E. cbn [bind dat].
  destruct (take2 (dat raw) 0 ltac:(lia) ltac:(lia)) as (x & y & r & E2). rewrite E2. change (ztake 2 (x :: y :: r)) with [x; y]. cbn [le16 bind]. rewrite from_val by lia. cbn [bind].
  destruct (IH (mkSl (zdrop 2 (dat raw)) (spare raw))) as (us & ->); [cbn [dat]; rewrite zlen_zdrop; lia|]. cbn [bind]. eauto.
Qed.
Lemma decode_units_safe : forall k cch fl raw, 0 <= cch -> (1 + fl mod 2) * cch <= zlen (dat raw) -> exists x, decode_units k cch fl raw = Ok x.
Proof.
  intros k cch fl raw H L. unfold decode_units. rewrite land1. pose proof (Z.mod_pos_bound fl 2 ltac:(lia)). destruct (Z.eqb_spec (fl mod 2) 0) as [E|E].
  - rewrite E in L. unfold sl_to. destruct (range_val raw 0 cch ltac:(lia) ltac:(lia) ltac:(lia)) as (sp & E1). change (0 + cch) with cch in E1. rewrite E1. cbn [bind]. eauto.
  - replace (fl mod 2) with 1 in L by lia. destruct (units_cap_safe (Z.to_nat cch) raw ltac:(lia)) as (us & ->). cbn [bind]. eauto.
Qed.
Lemma field_drop : forall d a b n, 0 <= a -> 0 <= b -> field (zdrop a d) b n = field d (a + b) n.
Proof. intros. unfold field. rewrite zdrop_zdrop by lia. reflexivity. Qed.
Lemma continues_lead : forall l, map dat (continues l) = lead l.
Proof. induction l as [|r l IH]; cbn [continues lead map]; auto. change RecTypeContinue with 60. destruct (b_type r =? 60); cbn [map]; [rewrite IH|]; reflexivity. Qed.
Lemma load_rec_safe : forall w r rest, rec_wf r -> global_sized r rest -> mild (load_rec w r rest) (fun _ => True).
Proof.
  intros w r rest (B & _ & _) G. unfold load_rec, sl_len. destruct (Z.eqb_spec (zlen (payload r)) 0) as [E|E]; [exact I|]. destruct G as [G|(G1 & G2 & G3 & G4 & G5 & G6)]; [contradiction|].
  unfold RecTypeSST, RecTypeContinue, RecTypeEOF, RecTypeBOF, RecTypeCodePage, RecTypeDate1904, RecTypeFormat, RecTypeXF, RecTypeBoundSheet8.
  assert (T16 : 2 <= zlen (payload r) -> exists x, le16 (payload r) = Ok x) by (intros L; destruct (take2 (payload r) 0 ltac:(lia) ltac:(lia)) as (x & y & q & E2); change (zdrop 0 (payload r)) with (payload r) in E2; rewrite E2; cbn [le16]; eauto).
  destruct (Z.eqb_spec (b_type r) 252) as [T|_].
  { destruct (G6 T) as (texts & HT). rewrite (table_parses (b_data r :: continues rest) texts); [exact I|]. cbn [map]. rewrite continues_lead. exact HT. }
  destruct (b_type r =? 60); [exact I|]. destruct (b_type r =? 10); [exact I|].
  destruct (Z.eqb_spec (b_type r) 2057) as [T|_].
  { specialize (G1 T). unfold check_bof. 
    assert (F16 : forall a (k : Z -> res unit), 0 <= a -> a + 2 <= 16 -> bind (sl_range (b_data r) a (a + 2)) (fun s => bind (le16 (dat s)) k) = k (field (payload r) a 2)).
    { intros a k H1 H2. change (bind (sl_range (b_data r) a (a + 2)) (fun s => bind (le16 (dat s)) k)) with (bind (sl_range (b_data r) a (a + 2)) (fun s => bind (le16 (dat s)) k)). pose proof (field16_val (b_data r) a H1 ltac:(lia)) as Q. unfold field16 in Q. destruct (sl_range (b_data r) a (a + 2)) as [s0| | |]; try discriminate. cbn [bind] in *. rewrite Q. reflexivity. }
    change (sl_range (b_data r) 0 2) with (sl_range (b_data r) 0 (0 + 2)). change (sl_range (b_data r) 2 4) with (sl_range (b_data r) 2 (2 + 2)). change (sl_range (b_data r) 4 6) with (sl_range (b_data r) 4 (4 + 2)). change (sl_range (b_data r) 6 8) with (sl_range (b_data r) 6 (6 + 2)).
    rewrite !F16 by lia. destruct (range_val (b_data r) 8 8 ltac:(lia) ltac:(lia) ltac:(lia)) as (sp & E8). change (8 + 8) with 16 in E8. rewrite E8. cbn [bind dat].
    destruct (le64_val (ztake 8 (zdrop 8 (payload r)))) as (x & ->); [apply bytes_ok_ztake, bytes_ok_zdrop; exact B|rewrite zlen_ztake; [lia|rewrite zlen_zdrop; lia]|]. cbn [bind].
    destruct (negb _); [cbn [bind mild]; auto|]. destruct (_ && _); cbn [bind mild]; auto. }
  destruct (Z.eqb_spec (b_type r) 66) as [T|_]. { destruct (T16 (G2 (or_introl T))) as (x & ->). exact I. }
  destruct (Z.eqb_spec (b_type r) 34) as [T|_]. { destruct (T16 (G2 (or_intror T))) as (x & ->). exact I. }
  destruct (Z.eqb_spec (b_type r) 1054) as [T|_].
  { destruct (G4 T) as (L1 & L2). destruct (T16 ltac:(lia)) as (x & ->). cbn [bind]. rewrite from_val by lia. cbn [bind]. pose proof (bytes_ok_zdrop _ 2 B) as B2. assert (Z2 : zlen (zdrop 2 (payload r)) = zlen (payload r) - 2) by (rewrite zlen_zdrop; lia).
    unfold decode_long. unfold sl_to. destruct (range_val (mkSl (zdrop 2 (payload r)) (spare (b_data r))) 0 2 ltac:(lia) ltac:(lia) ltac:(cbn [dat]; lia)) as (sp & E2). change (0 + 2) with 2 in E2. rewrite E2. cbn [bind dat].
    destruct (take2 (zdrop 2 (payload r)) 0 ltac:(lia) ltac:(lia)) as (a & b & q & E3). change (zdrop 0 (zdrop 2 (payload r))) with (zdrop 2 (payload r)) in *. rewrite E3 at 1. change (ztake 2 (a :: b :: q)) with [a; b]. cbn [le16 bind].
    pose proof (field2 _ _ _ _ _ E3) as F2. unfold sl_idx. cbn [dat]. destruct (idx_val _ 2 B2 ltac:(lia)) as (fl & -> & _ & Ef). rewrite field_drop in Ef by lia. cbn [bind]. rewrite from_val by (cbn [dat]; lia). cbn [bind dat spare].
    pose proof (w16_field _ 2 B ltac:(lia) ltac:(lia)) as W. unfold w16 in W. 
    destruct (decode_units_safe 3 (a + 256 * b) fl (mkSl (zdrop 3 (zdrop 2 (payload r))) (spare (b_data r)))) as ([c z] & ->); [lia| |exact I]. cbn [dat]. rewrite zlen_zdrop by lia. rewrite <- Ef, <- F2. change (2 + 2) with 4. lia. }
  destruct (Z.eqb_spec (b_type r) 224) as [T|_].
  { specialize (G3 T). rewrite from_val by lia. cbn [bind dat]. destruct (take2 (payload r) 2 ltac:(lia) ltac:(lia)) as (x & y & q & E2). rewrite E2. exact I. }
  destruct (Z.eqb_spec (b_type r) 133) as [T|_]; [|exact I].
  destruct (G5 T) as (L1 & L2). unfold sl_to. destruct (range_val (b_data r) 0 4 ltac:(lia) ltac:(lia) ltac:(lia)) as (sp & E4). change (0 + 4) with 4 in E4. rewrite E4. cbn [bind dat].
  destruct (take4 (payload r) 0 ltac:(lia) ltac:(lia)) as (a1 & a2 & a3 & a4 & q & E2). rewrite E2. change (ztake 4 (a1 :: a2 :: a3 :: a4 :: q)) with [a1; a2; a3; a4]. cbn [le32 bind]. unfold sl_idx at 1 2.
  destruct (idx_val _ 4 B ltac:(lia)) as (h & -> & _). cbn [bind]. destruct (idx_val _ 5 B ltac:(lia)) as (t & -> & _). cbn [bind]. rewrite from_val by lia. cbn [bind]. unfold decode_short, sl_idx. cbn [dat].
  pose proof (bytes_ok_zdrop _ 6 B) as B6. assert (Z6 : zlen (zdrop 6 (payload r)) = zlen (payload r) - 6) by (rewrite zlen_zdrop; lia).
  destruct (idx_val _ 0 B6 ltac:(lia)) as (cch & -> & R1 & F1). cbn [bind]. destruct (idx_val _ 1 B6 ltac:(lia)) as (fl & -> & _ & F2). cbn [bind]. rewrite from_val by (cbn [dat]; lia). cbn [bind dat spare].
  rewrite field_drop in F1, F2 by lia.
  destruct (decode_units_safe 2 cch fl (mkSl (zdrop 2 (zdrop 6 (payload r))) (spare (b_data r)))) as ([c z] & ->); [lia| |exact I]. cbn [dat]. rewrite zlen_zdrop by lia. rewrite <- F1, <- F2. change (6 + 1) with 7. change (6 + 0) with 6. lia.
Qed.
Lemma load_recs_safe : forall l w, Forall rec_wf l -> globals_sized l -> mild (load_recs w l) (fun _ => True).
Proof.
  induction l as [|r l IH]; intros w F G; cbn [load_recs]; [exact I|]. inversion F; subst. destruct G as (G1 & G2). pose proof (load_rec_safe w r l H1 G1) as Q. destruct (load_rec w r l); cbn [bind mild] in *; auto.
Qed.
Lemma load_streams_safe : forall ss w, Forall (Forall rec_wf) ss -> Forall globals_sized ss -> mild (load_streams w ss) (fun _ => True).
Proof.
  induction ss as [|l ss IH]; intros w F G; cbn [load_streams]; [exact I|]. inversion F; subst. inversion G; subst. pose proof (load_recs_safe l w H1 H3) as Q. destruct (load_recs w l); cbn [bind mild] in *; auto.
Qed.
(** Opening: once the records are told apart, records that are long enough give a workbook or one
    of the two version errors. *)
Theorem C85_load : forall raw sp2 st, bytes_ok (dat raw) -> bytes_ok (spare raw) -> bytes_ok sp2 -> split_workbook raw sp2 = Ok st ->
  Forall globals_sized (st_streams st) ->
  match load_workbook raw sp2 with
  | Ok w => wb_streams w = st_streams st
  | Err e => e = EFileVersion \/ e = EBiffVersion
  | Panic | NoFuel => False
  end.
Proof.
  intros raw sp2 st A B C H G. destruct (split_workbook_ok _ _ _ A B C H) as (S1 & _). unfold load_workbook. rewrite H. cbn [bind].
  pose proof (load_streams_safe (st_streams st) (new_wbook st) S1 G) as Q. destruct (load_streams _ _) eqn:E; cbn [mild] in *; auto.
  destruct (load_streams_ok (st_streams st) (new_wbook st) a S1 rf_new (Forall_nil _) E) as (_ & _ & Q3 & _). exact Q3.
Qed.

(** telling the records apart: any records in a stream that begins with a BOF *)
Lemma feed_safe : forall rs st, 0 <= st_sub st < zlen (st_streams st) -> exists st', feed_records rs st = Ok st'.
Proof.
  induction rs as [|r rs IH]; intros st H; cbn [feed_records]; [eauto|].
  assert (E : 0 <= st_sub (enter st r) < zlen (st_streams (enter st r))).
  { unfold enter. destruct (b_type r =? RecTypeEOF); [exact H|]. destruct (b_type r =? RecTypeBOF); [|exact H]. destruct (st_nest st =? 0); cbn [st_sub st_streams]; [|exact H]. rewrite zlen_app. change (zlen [@nil brec]) with 1. lia. }
  unfold store. destruct (idx_in _ _ _ E) as (l & ->). cbn [bind]. unfold set_idx. replace ((0 <=? st_sub (enter st r)) && (st_sub (enter st r) <? zlen (st_streams (enter st r)))) with true by lia. cbn [bind].
  apply IH. cbn [st_sub st_streams]. unfold zlen. rewrite upd_length. exact E.
Qed.
Theorem C85_split : forall p rs tail sp sp2, Forall (rec_fits 65531) ((BOF, p) :: rs) -> Forall (fun r => fst r <> FILEPASS) rs -> zlen tail < 4 ->
  exists st, split_workbook (mkSl (stream ((BOF, p) :: rs) ++ tail) sp) sp2 = Ok st.
Proof.
  intros p rs tail sp sp2 F NF T. unfold split_workbook. rewrite split_stream_records; [|exact F|right; constructor; [discriminate|exact NF]|exact T].
  cbn [brecs feed_records fst snd]. unfold enter. cbn [b_type]. change (BOF =? RecTypeEOF) with false. change (BOF =? RecTypeBOF) with true. cbv iota. change (st_nest bst0 =? 0) with true. cbv iota.
  unfold store, bst0. cbn [st_streams st_sub st_nest st_pos st_map]. change (zlen (@nil (list brec))) with 0. cbn [app]. change (idx [@nil brec] 0) with (Ok (@nil brec)). cbn [bind app].
  match goal with |- context [set_idx [@nil brec] 0 ?x] => change (set_idx [@nil brec] 0 x) with (Ok [x]) end. cbn [bind].
  match goal with |- context [feed_records ?a ?b] => destruct (feed_safe a b) as (st & ->) end; [cbn [st_sub st_streams]; change (zlen [?x]) with 1; unfold zlen; cbn [List.length]; lia|]. cbn [bind]. eauto.
Qed.
(** a stream that does not begin with one *)
Theorem C85_split_refuted : forall ty p rest sp sp2, rec_fits 65531 (ty, p) -> ty <> BOF -> ty <> FILEPASS ->
  split_workbook (mkSl (enc_rec (ty, p) ++ rest) sp) sp2 = Panic.
Proof.
  intros ty p rest sp sp2 F N1 N2. unfold split_workbook, split_stream. cbn [dat split_loop]. rewrite next_record_ok by exact F. unfold sl_from, sl_len. cbn [dat spare b_type fst snd]. rewrite zlen_app, zlen_enc_rec. cbn [snd]. pose proof (zlen_nonneg _ p). pose proof (zlen_nonneg _ rest).
  replace ((0 <=? 4 + zlen p) && (4 + zlen p <=? 4 + zlen p + zlen rest)) with true by lia. cbn [bind]. change RecTypeFilePass with FILEPASS. replace (ty =? FILEPASS) with false by lia. cbn [andb].
  unfold enter. cbn [b_type]. change RecTypeBOF with BOF. replace (ty =? BOF) with false by lia. unfold store. destruct (ty =? RecTypeEOF); reflexivity.
Qed.
(** ** The bounds are exact: any shorter record makes Get panic, whatever it contains and whatever
    follows in the file.  (A short Dimensions record may read bytes of the records behind it; it
    panics at the end of the stream.) *)
Lemma from16_short : forall d a, zlen (dat d) < a + 2 -> from16 d a = Panic.
Proof.
  intros d a H. unfold from16, sl_from, sl_len. destruct (_ && _) eqn:E; [|reflexivity]. cbn [bind dat].
  pose proof (zlen_zdrop _ (dat d) a ltac:(lia)) as L. destruct (zdrop a (dat d)) as [|x [|y l]]; try reflexivity. unfold zlen in *. cbn [List.length] in L. lia.
Qed.
Lemma from32_short : forall d a, zlen (dat d) < a + 4 -> from32 d a = Panic.
Proof.
  intros d a H. unfold from32, sl_from, sl_len. destruct (_ && _) eqn:E; [|reflexivity]. cbn [bind dat].
  pose proof (zlen_zdrop _ (dat d) a ltac:(lia)) as L. destruct (zdrop a (dat d)) as [|x [|y [|z [|t l]]]]; try reflexivity. unfold zlen in *. cbn [List.length] in L. lia.
Qed.
Lemma le64_short : forall d, zlen d < 8 -> le64 d = Panic.
Proof. intros d H. destruct d as [|a [|b [|c [|e [|f [|g [|h [|i d]]]]]]]]; try reflexivity. unfold zlen in H. cbn [List.length] in H. lia. Qed.
Lemma from64_short : forall d a, zlen (dat d) < a + 8 -> from64 d a = Panic.
Proof.
  intros d a H. unfold from64, sl_from, sl_len. destruct (_ && _) eqn:E; [|reflexivity]. cbn [bind dat]. apply le64_short. rewrite zlen_zdrop; lia.
Qed.
Lemma idx_short : forall d a, zlen (dat d) <= a -> sl_idx d a = Panic.
Proof.
  intros d a H. unfold sl_idx, idx. destruct (Z.leb_spec 0 a); [|reflexivity]. destruct (nth_error (dat d) (Z.to_nat a)) eqn:E; [|reflexivity].
  assert (nth_error (dat d) (Z.to_nat a) <> None) as N by congruence. apply nth_error_Some in N. unfold zlen in H. lia.
Qed.
Lemma from_short : forall d a, zlen (dat d) < a -> sl_from d a = Panic.
Proof. intros d a H. unfold sl_from, sl_len. replace ((0 <=? a) && (a <=? zlen (dat d))) with false by lia. reflexivity. Qed.
Lemma field16_cases : forall d a, (exists x, field16 d a = Ok x) \/ field16 d a = Panic.
Proof. intros. unfold field16, sl_range. destruct (_ && _); cbn [bind dat]; auto. destruct (ztake _ _) as [|x [|y l]]; cbn [le16]; eauto. Qed.
Lemma from16_cases : forall d a, (exists x, from16 d a = Ok x) \/ from16 d a = Panic.
Proof. intros. unfold from16, sl_from. destruct (_ && _); cbn [bind dat]; auto. destruct (zdrop _ _) as [|x [|y l]]; cbn [le16]; eauto. Qed.
Lemma idx_cases : forall d a, (exists x, sl_idx d a = Ok x) \/ sl_idx d a = Panic.
Proof. intros. unfold sl_idx, idx. destruct (0 <=? a); auto. destruct (nth_error _ _); eauto. Qed.
Lemma field16_bind : forall A d a (k : Z -> res A), (forall x, k x = Panic) -> bind (field16 d a) k = Panic.
Proof. intros A d a k H. destruct (field16_cases d a) as [[x ->]| ->]; cbn [bind]; auto. Qed.

Theorem C85_short_refuted : forall w ss r rest, idx (wb_streams w) ss = Ok (r :: rest) -> b_size r = zlen (payload r) ->
  0 < least (b_type r) -> zlen (payload r) < least (b_type r) ->
  b_type r <> 60 -> (b_type r = 512 -> spare (b_data r) = []) -> (b_type r <> 512 -> b_type r <> 129 -> rest = []) ->
  parse_sheet w ss = Panic.
Proof.
  intros w ss r rest El Sz P L N60 N512 NR. unfold parse_sheet. rewrite El. cbn [bind]. pose proof (zlen_nonneg _ (payload r)) as NN.
  assert (NB : b_type r <> 2057) by (intros E; rewrite E in P; change (least 2057) with 0 in P; lia).
  destruct (Z.eq_dec (b_type r) 129) as [E|N129].
  { cbn [scan_dims]. change (0 <? 0) with false. cbv iota. rewrite E in *. zdec. change (least 129) with 2 in L. rewrite idx_short by lia. reflexivity. }
  destruct (Z.eq_dec (b_type r) 512) as [E|N5].
  { cbn [scan_dims]. change (0 <? 0) with false. cbv iota. rewrite E in *. zdec. change (least 512) with 12 in L. specialize (N512 eq_refl).
    assert (S0 : forall a b, zlen (payload r) < b -> sl_range (b_data r) a b = Panic) by (intros a b Hb; unfold sl_range, sl_full; rewrite N512, app_nil_r; replace ((0 <=? a) && (a <=? b) && (b <=? zlen (payload r))) with false by lia; reflexivity).
    assert (C : forall a, (exists x, field32 (b_data r) a = Ok x) \/ field32 (b_data r) a = Panic).
    { intros. unfold field32, sl_range. destruct (_ && _); cbn [bind dat]; auto. destruct (ztake _ _) as [|? [|? [|? [|? ?]]]]; cbn [le32]; eauto. }
    destruct (C 0) as [[x ->]| ->]; [|reflexivity]. destruct (C 4) as [[y ->]| ->]; [|reflexivity]. cbn [bind]. rewrite field16_bind; [reflexivity|]. intros.
    unfold field16 at 1. change (10 + 2) with 12. rewrite S0 by lia. reflexivity. }
  rewrite (NR N5 N129). cbn [scan_dims sheet_recs]. change (0 <? 0) with false. cbv iota. unfold RecTypeBOF, RecTypeWsBool, RecTypeDimensions.
  replace (b_type r =? 2057) with false by lia. replace (b_type r =? 129) with false by lia. replace (b_type r =? 512) with false by lia. cbn [bind].
  match goal with |- bind (bind ?m _) _ = _ => assert (m = Panic) as ->; [|reflexivity] end.
  unfold sheet_rec. unfold least in P, L. cbn [p_sheet p_row p_col p_ucap].
  unfold RecTypeBoolErr, RecTypeMulRk, RecTypeNumber, RecTypeRK, RecTypeFormula, RecTypeString, RecTypeLabelSst, RecTypeHLink, RecTypeMergeCells.
  destruct (b_type r =? 517). { repeat (apply field16_bind; intros). rewrite idx_short by lia. reflexivity. }
  destruct (b_type r =? 189).
  { repeat (apply field16_bind; intros). destruct (Z.to_nat (u16 (b_size r - 6) / 6)) eqn:En.
    - exfalso. rewrite Sz in En. unfold u16 in En. replace ((zlen (payload r) - 6) mod 65536) with (zlen (payload r) + 65530) in En.
      + pose proof (Z.div_le_mono 65530 (zlen (payload r) + 65530) 6 ltac:(lia) ltac:(lia)). change (65530 / 6) with 10921 in H. lia.
      + replace (zlen (payload r) - 6) with (zlen (payload r) + 65530 + (-1) * 65536) by lia. rewrite Z.mod_add by lia. rewrite Z.mod_small; lia.
    - cbn [mul_rk]. rewrite from16_short by lia. reflexivity. }
  destruct (b_type r =? 515). { repeat (apply field16_bind; intros). rewrite from64_short by lia. reflexivity. }
  destruct (b_type r =? 638). { repeat (apply field16_bind; intros). destruct (from16_cases (b_data r) 4) as [[x2 ->]| ->]; [|reflexivity]. cbn [bind]. rewrite from32_short by lia. reflexivity. }
  destruct (b_type r =? 6).
  { unfold formula_rec.
    match goal with |- bind ?m _ = _ => assert (m = Panic) as ->; [|reflexivity] end.
    repeat (apply field16_bind; intros). destruct (Z.ltb_spec (zlen (payload r)) 6); [rewrite from_short by lia; reflexivity|]. rewrite from_val by lia. cbn [bind].
    assert (L6 : zlen (zdrop 6 (payload r)) < 8) by (rewrite zlen_zdrop; lia).
    destruct (idx_cases (mkSl (zdrop 6 (payload r)) (spare (b_data r))) 6) as [[f6 ->]| ->]; [|reflexivity]. cbn [bind dat]. rewrite (le64_short _ L6). rewrite (idx_short _ 7) by (cbn [dat]; lia).
    destruct (negb (f6 =? 255)); reflexivity. }
  destruct (b_type r =? 519).
  { unfold string_head. match goal with |- bind ?m _ = _ => assert (m = Panic) as ->; [|reflexivity] end. repeat (apply field16_bind; intros). rewrite idx_short by lia. reflexivity. }
  destruct (b_type r =? 253). { repeat (apply field16_bind; intros). rewrite from32_short by lia. reflexivity. }
  destruct (b_type r =? 440).
  { unfold hlink_rec. match goal with |- bind ?m _ = _ => assert (m = Panic) as ->; [|reflexivity] end. repeat (apply field16_bind; intros). rewrite from16_short by lia. reflexivity. }
  destruct (b_type r =? 229). { repeat (apply field16_bind; intros). rewrite from_short by lia. reflexivity. }
  exfalso. revert P. replace (b_type r =? 129) with false by lia. replace (b_type r =? 512) with false by lia. replace (b_type r =? 60) with false by lia. lia.
Qed.

(** A String record with no formula before it. *)
Theorem C85_text_refuted : forall w ss r, idx (wb_streams w) ss = Ok [r] -> b_type r = 519 -> bytes_ok (payload r) ->
  3 <= zlen (payload r) -> counted (payload r) 519 -> parse_sheet w ss = Panic.
Proof.
  intros w ss r El E B L (C1 & _). unfold parse_sheet. rewrite El. cbn [bind scan_dims sheet_recs]. change (0 <? 0) with false. cbv iota. rewrite E.
  change (519 =? RecTypeBOF) with false. change (519 =? RecTypeWsBool) with false. change (519 =? RecTypeDimensions) with false. cbv iota. cbn [bind].
  unfold sheet_rec. rewrite E. cbn [p_sheet p_row p_col p_ucap].
  change (519 =? RecTypeBoolErr) with false. change (519 =? RecTypeMulRk) with false. change (519 =? RecTypeNumber) with false. change (519 =? RecTypeRK) with false. change (519 =? RecTypeFormula) with false. change (519 =? RecTypeString) with true. cbv iota.
  assert (SH : exists t1 u, string_head (b_data r) 8224 = Ok (t1, u)).
  { unfold string_head. rewrite !field16_val by lia. cbn [bind]. unfold sl_idx. destruct (idx_val _ 2 B ltac:(lia)) as (fl & -> & _ & Ef). cbn [bind]. rewrite from_val by lia. cbn [bind dat].
    rewrite land1. destruct (Z.eqb_spec (fl mod 2) 0); [eauto|]. pose proof (Z.mod_pos_bound fl 2 ltac:(lia)). specialize (C1 eq_refl ltac:(rewrite Ef; lia)). pose proof (w16_field _ 0 B ltac:(lia) ltac:(lia)) as W. unfold w16 in W.
    destruct (units_safe (Z.to_nat (field (payload r) 0 2)) (mkSl (zdrop 3 (payload r)) (spare (b_data r)))) as (us & rr & ->); [cbn [dat]; rewrite zlen_zdrop by lia; lia|]. cbn [bind]. eauto. }
  destruct SH as (t1 & u & ->). cbn [bind string_conts app].
  destruct (set_value_cases (empty_sheet (wb_fx w)) 0 0 (GStr (t1 ++ [])) (wf_empty _) ltac:(intros; left; apply content_empty)) as [[[H|H] _]|[(_ & _ & _ & H & _)|(_ & _ & _ & ->)]];
    cbn [empty_sheet sh_nrows sh_ncols] in *; try lia. reflexivity.
Qed.

(** The rows and columns a Dimensions record announces are all made, whatever the file contains:
    a sheet substream of 16 bytes can ask for 2^32 rows of 2^16 cells. *)
Theorem C86_dimensions_refuted : forall w ss r rows cols, idx (wb_streams w) ss = Ok [r] -> b_type r = 512 ->
  w32 rows -> w16 cols -> 0 < rows -> 0 < cols -> payload r = put32 0 ++ put32 rows ++ put16 0 ++ put16 cols ->
  exists s, parse_sheet w ss = Ok (Some s) /\ zlen (sh_rows s) = rows + 1 /\ Forall (fun row => zlen row = cols) (sh_rows s).
Proof.
  intros w ss r rows cols El E Wr Wc Pr Pc Ep. unfold parse_sheet. rewrite El. cbn [bind scan_dims sheet_recs]. change (0 <? 0) with false. cbv iota. rewrite E.
  change (512 =? RecTypeBOF) with false. change (512 =? RecTypeWsBool) with false. change (512 =? RecTypeDimensions) with true. cbv iota.
  rewrite (field32_at (b_data r) [] 0 (put32 rows ++ put16 0 ++ put16 cols)) by (auto; unfold w32; lia). cbn [bind].
  rewrite (field32_at (b_data r) (put32 0) rows (put16 0 ++ put16 cols)) by auto. cbn [bind].
  rewrite (field16_at (b_data r) (put32 0 ++ put32 rows) 0 (put16 cols)) by (auto; rewrite ?Ep, <- ?app_assoc; auto; unfold w16; lia). cbn [bind].
  rewrite (field16_at (b_data r) (put32 0 ++ put32 rows ++ put16 0) cols []) by (auto; rewrite ?Ep, <- ?app_assoc; auto). cbn [bind].
  unfold sheet_rec. rewrite E. repeat match goal with |- context [512 =? ?x] => change (512 =? x) with false end. cbv iota. cbn [bind p_sheet]. eexists. split; [reflexivity|].
  unfold resize. cbn [empty_sheet sh_rows sh_fx]. replace (rows <=? 0) with false by lia. replace (cols <=? 0) with false by lia.
  assert (W0 : widen_rows 0 rows cols [] = []) by reflexivity. rewrite W0. cbn [app sh_rows]. change (zlen (@nil (list (list goval)))) with 0. split.
  - unfold zlen. rewrite repeat_length. lia.
  - apply Forall_forall. intros x I. apply repeat_spec in I. subst x. unfold blank_row, zlen. rewrite repeat_length. lia.
Qed.

(** A file with odd but long enough records: a BOF with extra bytes, an XF index out of range, an
    unknown error code, a MulRk with three left-over bytes, a merged region that ends before it
    starts, a hyperlink of version 9, a boolean formula with reserved bytes set, an embedded
    substream with records of three bytes, a String record after a cell. *)
Definition ex_globals : list frec := [(BOF, put16 1536 ++ put16 5 ++ put16 0 ++ put16 1997 ++ repeat 9 20); (66, [176; 4]); (34, [0; 0]);
  (224, [0; 0; 0; 0]); (133, put32 85 ++ [0; 0; 1; 0; 65]); (252, put32 1 ++ put32 1 ++ [1; 0; 0; 66]); (EOFR, [])].
Definition ex_sheet : list frec := [(BOF, put16 1536 ++ put16 16 ++ put16 0 ++ put16 1997 ++ repeat 0 8); (512, repeat 0 12 ++ [1]); (129, [0; 0; 5]);
  (6, [0; 0; 0; 0; 0; 0; 0; 1; 2; 3; 4; 5; 255; 255; 7]); (517, [1; 0; 0; 0; 99; 0; 77; 1]); (519, [1; 0; 0; 72]); (60, [1; 73; 0]);
  (189, [2; 0; 0; 0; 0; 0; 2; 0; 0; 0; 1; 2; 3]); (229, [1; 0; 5; 0; 3; 0; 0; 0; 1; 0]); (440, [0; 0; 0; 0; 0; 0; 0; 0] ++ repeat 1 16 ++ put32 9 ++ [1]);
  (BOF, put16 1536 ++ put16 32 ++ put16 0 ++ put16 1997 ++ repeat 0 8); (515, [1; 2; 3]); (EOFR, []); (253, [3; 0; 1; 0; 0; 0; 0; 0; 0; 0]); (253, [3; 0; 2; 0; 0; 0; 9; 0; 0; 0]); (EOFR, [])].
Definition ex_file : bytes := stream ex_globals ++ stream ex_sheet.
Definition ex_wb : wbook := match load_workbook (mkSl ex_file []) [] with Ok w => w | _ => new_wbook bst0 end.
Definition sizedb (n : Z) (r : brec) : bool :=
  let p := payload r in let ty := b_type r in
  (least ty <=? zlen p) && implb ((ty =? 519) && (field p 2 1 mod 2 =? 1)) (3 + 2 * field p 0 2 <=? zlen p) &&
  implb (ty =? 229) (2 + 8 * field p 0 2 <=? zlen p) && implb (ty =? 60) (zlen p <=? 8224) && implb (ty =? 253) (negb (field p 6 4 =? n)) &&
  implb (ty =? 440) (match link_extent (zdrop 8 p) (zdrop 8 p ++ spare (b_data r)) with Overrun => false | _ => true end).
Lemma sizedb_ok : forall n r, sizedb n r = true -> sized n r.
Proof.
  intros n r H. unfold sizedb in H. cbv zeta in H. apply andb_prop in H. destruct H as (H & HL).
  split; [lia|]. split; [split; [|split]; intros; lia|]. split; [intros; lia|]. intros E. rewrite E in HL. change (440 =? 440) with true in HL. cbn [implb] in HL.
  unfold link_sound. cbv zeta. intros Q. rewrite Q in HL. discriminate.
Qed.
Example ex_C85_bytes : bytes_ok ex_file.
Proof. unfold bytes_ok. apply Forall_forall. intros x I. assert (H : forallb (fun x => (0 <=? x) && (x <? 256)) ex_file = true) by (vm_compute; reflexivity). rewrite forallb_forall in H. specialize (H x I). lia. Qed.
Example ex_C85_loads : load_workbook (mkSl ex_file []) [] = Ok ex_wb /\ wb_list ex_wb = [bs "A"] /\ List.length (wb_streams ex_wb) = 2%nat.
Proof. vm_compute. repeat split. Qed.
Fixpoint textsb (l : list brec) (ready : bool) : bool :=
  match l with
  | [] => true
  | r :: l => if b_type r =? 6 then textsb l (has_value (payload r)) else implb (b_type r =? 519) ready && textsb l ready
  end.
Lemma textsb_ok : forall l ready, textsb l ready = true -> texts_follow l ready.
Proof.
  induction l as [|r l IH]; intros ready H; cbn [textsb texts_follow] in *; [auto|]. destruct (b_type r =? 6); [apply IH, H|]. apply andb_prop in H. destruct H as (H1 & H2). split; [|apply IH, H2].
  intros E. rewrite E in H1. exact H1.
Qed.
Example ex_C85_sized : Forall (sheet_sized (zlen (wb_strings ex_wb))) (wb_streams ex_wb).
Proof.
  assert (E : zlen (wb_strings ex_wb) = 1) by (vm_compute; reflexivity). rewrite E.
  assert (F : forallb (fun l => forallb (sizedb 1) (top l true 0)) (wb_streams ex_wb) = true) by (vm_compute; reflexivity).
  assert (F2 : forallb (fun l => textsb (top l true 0) false && (List.length (filter is_dim (top l true 0)) <=? 1)%nat) (wb_streams ex_wb) = true) by (vm_compute; reflexivity).
  rewrite forallb_forall in F2.
  rewrite forallb_forall in F. apply Forall_forall. intros l I. specialize (F2 l I). apply andb_prop in F2. split; [|split; [apply textsb_ok; tauto|unfold one_dimension; apply Nat.leb_le; tauto]]. apply Forall_forall. intros r Ir. apply sizedb_ok. specialize (F l I). rewrite forallb_forall in F. apply F, Ir.
Qed.
Definition ex_item : tstring := mkTS 0 [66] [] [[]] [[]].
Definition global_sizedb (r : brec) (rest : list brec) : bool :=
  let p := payload r in let ty := b_type r in
  (zlen p =? 0) || (implb (ty =? 2057) (16 <=? zlen p) && implb ((ty =? 66) || (ty =? 34)) (2 <=? zlen p) && implb (ty =? 224) (4 <=? zlen p) &&
   negb (ty =? 1054) && implb (ty =? 133) ((8 <=? zlen p) && (8 + (1 + field p 7 1 mod 2) * field p 6 1 <=? zlen p)) &&
   implb (ty =? 252) (if list_eq_dec (list_eq_dec Z.eq_dec) (p :: lead rest) (glue [put32 1 ++ put32 1] (table [(0%nat, ex_item)] 0)) then true else false)).
Lemma global_sizedb_ok : forall r rest, global_sizedb r rest = true -> global_sized r rest.
Proof.
  intros r rest H. unfold global_sizedb in H. cbv zeta in H. apply orb_prop in H. destruct H as [H|H]; [left; lia|right]. apply andb_prop in H. destruct H as (H & HS).
  split; [intros; lia|]. split; [intros; lia|]. split; [intros; lia|]. split; [intros; lia|]. split; [intros; lia|]. intros E. rewrite E in HS. change (252 =? 252) with true in HS. cbn [implb] in HS.
  destruct (list_eq_dec _ _ _) as [Q|]; [|discriminate]. exists [ts_text ex_item], (put32 1 ++ put32 1), [(0%nat, ex_item)], 0%nat. split; [reflexivity|]. split; [|split; [exact Q|reflexivity]].
  split; [|split; [|exact I]]; [|intros W _; discriminate W]. unfold ts_ok. split; [change (1 < 65536); lia|]. split; [change (0 <= 0 < 256); lia|]. split; [repeat constructor; lia|]. split; [constructor|]. repeat (split; [discriminate|]). split; reflexivity.
Qed.
Fixpoint globals_sizedb (l : list brec) : bool := match l with [] => true | r :: l => global_sizedb r l && globals_sizedb l end.
Lemma globals_sizedb_ok : forall l, globals_sizedb l = true -> globals_sized l.
Proof. induction l as [|r l IH]; cbn [globals_sizedb globals_sized]; [auto|]. intros H. apply andb_prop in H. split; [apply global_sizedb_ok|apply IH]; tauto. Qed.
Example ex_C85_globals : Forall globals_sized (wb_streams ex_wb).
Proof.
  assert (F : forallb globals_sizedb (wb_streams ex_wb) = true) by (vm_compute; reflexivity). rewrite forallb_forall in F. apply Forall_forall. intros l I. apply globals_sizedb_ok, F, I.
Qed.
Example ex_C85_error : wb_get ex_wb (bs "A") = Err ESstIndex.
Proof. vm_compute. reflexivity. Qed.
(** one byte less in the Formula record, and nothing else changed *)
Example ex_C85_short : parse_sheet (mkWB [] [] 0 new_formatter [] [[mkRec 6 13 (mkSl (repeat 0 13) (repeat 0 50))]] []) 0 = Panic.
Proof. vm_compute. reflexivity. Qed.

Print Assumptions C85_get.
Print Assumptions C85_load.
Print Assumptions C85_split.
Print Assumptions C85_split_refuted.
Print Assumptions C85_short_refuted.
Print Assumptions C85_text_refuted.
Print Assumptions C86_dimensions_refuted.

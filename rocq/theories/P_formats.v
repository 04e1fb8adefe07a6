(** * P_formats: C19, C23-C29, C67 (commonxl/fmt.go, formats.go). *)
From Verif Require Import GoBase GoFloat GoUnicode GoTime L_base L_float M_grate M_value M_dates M_numbers L_numbers
  M_fmt M_formats M_cell M_sheet S_cell L_cell S_sheet L_sheet S_formats L_formats L_ffun L_simple.
From Coq Require Import Reals Lra Psatz.
From Flocq Require Import Core IEEE754.BinarySingleNaN.
Open Scope Z_scope.

Local Opaque convert_to_date f_of_Z fmul f_of_dec format_f parse_float.

(** ** C23 thousands separators *)

Lemma app_inj_len : forall A (a b x y : list A), a ++ x = b ++ y -> List.length a = List.length b -> a = b /\ x = y.
Proof.
  induction a as [|c a IH]; intros [|d b] x y E L; simpl in *; try discriminate; auto.
  injection E as -> E. injection L as L. destruct (IH _ _ _ E L) as [-> ->]. auto.
Qed.

(** the grouping is determined by the digits *)
Theorem C23_grouping_unique : forall s t1 t2, in_thousands s t1 -> in_thousands s t2 -> t1 = t2.
Proof.
  intros s t1 t2 (g1 & gs1 & E1 & -> & L1 & F1) (g2 & gs2 & E2 & -> & L2 & F2).
  enough (g1 :: gs1 = g2 :: gs2) by congruence.
  revert s g1 g2 gs2 E1 E2 L1 L2 F1 F2. induction gs1 as [|h1 gs1 IH] using rev_ind; intros.
  - destruct gs2 as [|a gs2] using rev_ind; [simpl in *; rewrite app_nil_r in *; congruence|]. exfalso. clear IHgs2.
    apply Forall_app in F2 as [_ F2]. inversion F2; subst.
    assert (L : zlen (concat (g2 :: gs2 ++ [a])) = zlen (concat [g1])) by congruence.
    simpl in L. rewrite concat_app in L. rewrite !zlen_app in L. simpl in L. rewrite app_nil_r in L.
    rewrite zlen_nil in L. pose proof (zlen_nonneg _ (concat gs2)). lia.
  - destruct gs2 as [|h2 gs2 _] using rev_ind.
    + exfalso. apply Forall_app in F1 as [_ F1]. inversion F1; subst.
      assert (L : zlen (concat (g1 :: gs1 ++ [h1])) = zlen (concat [g2])) by congruence.
      simpl in L. rewrite concat_app in L. rewrite !zlen_app in L. simpl in L. rewrite app_nil_r in L.
      rewrite zlen_nil in L. pose proof (zlen_nonneg _ (concat gs1)). lia.
    + apply Forall_app in F1 as [F1 G1]. apply Forall_app in F2 as [F2 G2].
      inversion G1; subst. inversion G2; subst.
      assert (E : concat (g1 :: gs1) ++ h1 = concat (g2 :: gs2) ++ h2).
      { simpl in E2. simpl. rewrite concat_app in E2. rewrite concat_app in E2. simpl in E2.
        rewrite !app_nil_r in E2. rewrite <- !app_assoc. symmetry. exact E2. }
      assert (LL : List.length (concat (g1 :: gs1)) = List.length (concat (g2 :: gs2))).
      { apply (f_equal (@List.length Z)) in E. rewrite !app_length in E. unfold zlen in *. lia. }
      apply app_inj_len in E; auto. destruct E as [EA EB]. subst h2.
      specialize (IH _ g1 g2 gs2 eq_refl (eq_sym EA) L1 L2 F1 F2). injection IH as -> ->. reflexivity.
Qed.

Definition no_commas (s : gostr) : Prop := Forall (fun c => c <> 44) s.
Definition drop_commas (s : gostr) : gostr := filter (fun c => negb (c =? 44)) s.

Lemma drop_commas_id : forall s, no_commas s -> drop_commas s = s.
Proof.
  induction 1; simpl; auto. destruct (Z.eqb_spec x 44); [contradiction|]. simpl. f_equal. auto.
Qed.

(** deleting the commas restores the digits *)
Theorem C23_only_commas_added : forall s t, no_commas s -> in_thousands s t -> drop_commas t = s.
Proof.
  intros s t Hs (g & gs & E & -> & _). subst s.
  revert g Hs. induction gs as [|a gs IH]; intros g Hs.
  - simpl in *. rewrite app_nil_r in *. apply drop_commas_id; auto.
  - change (join [44] (g :: a :: gs)) with (g ++ [44] ++ join [44] (a :: gs)).
    change (concat (g :: a :: gs)) with (g ++ concat (a :: gs)) in *.
    apply Forall_app in Hs as [H1 H2].
    unfold drop_commas. rewrite !filter_app. fold (drop_commas g). rewrite drop_commas_id by auto.
    simpl filter at 1. simpl app at 1. f_equal. apply IH; auto.
Qed.

Definition minus (neg : bool) : gostr := if neg then [45] else [].

(** The comma wrapper on any formatter that yields an optionally signed integer part followed by
    nothing or by a fraction or exponent. *)
Theorem C23_commas : forall m f v neg ip tail,
  ff_eval m f v = Ok (minus neg ++ ip ++ tail) ->
  ip <> [] -> Forall (fun c => 48 <= c <= 57) ip ->
  (tail = [] \/ exists c r, tail = c :: r /\ (c = 46 \/ c = 101 \/ c = 69)) ->
  exists u, in_thousands ip u /\ drop_commas u = ip /\
    ff_eval m (FCommas f) v = Ok (minus neg ++ u ++ tail).
Proof.
  intros m f v neg ip tail E Hne Hd Ht.
  destruct (add_commas_spec neg ip tail) as (u & Hu & Ea); auto.
  - eapply Forall_impl; [|exact Hd]. intros c Hc. unfold int_char. cbv beta in Hc. lia.
  - intros _ r Er. subst ip. inversion Hd; subst. lia.
  - exists u. split; auto. split.
    + apply C23_only_commas_added; auto. eapply Forall_impl; [|exact Hd]. intros c Hc. cbv beta in Hc. lia.
    + simpl. rewrite E. exact Ea.
Qed.

(** built-in formats 3 and 61, "#,##0", on integers *)
Theorem C23_builtin_integers : forall x id z, In id [3; 61] ->
  exists d u, nat_numeral (Z.abs z) d /\ in_thousands d u /\
    fx_apply x id (GInt KInt64 z) = Ok (minus (z <? 0) ++ u, true).
Proof.
  intros x id z Hid.
  assert (N : nat_numeral (Z.abs z) (utoa (Z.abs z))) by (apply utoa_numeral; lia).
  assert (E : sprintf_text (sf_d false) 1 (GInt KInt64 z) = minus (z <? 0) ++ utoa (Z.abs z) ++ []).
  { unfold sprintf_text, sprintf_int, sf_d, int_text. cbn [fm_verb fm_prec fm_wid fm_pct].
    unfold pad_left. replace (Z.to_nat (0 - zlen (itoa z))) with 0%nat by (pose proof (zlen_nonneg _ (itoa z)); lia).
    cbn [repeat]. rewrite !app_nil_r. unfold itoa, minus. simpl app.
    destruct (Z.ltb_spec z 0); [rewrite Z.abs_neq by lia; reflexivity|rewrite Z.abs_eq by lia; reflexivity]. }
  destruct N as (N1 & N2 & N3 & N4).
  destruct (C23_commas (fx_1904 x) (FSprintf (sf_d false) 1) (GInt KInt64 z) (z <? 0) (utoa (Z.abs z)) []) as (u & Hu & _ & Eu); auto.
  { cbn [ff_eval]. rewrite E. reflexivity. }
  rewrite app_nil_r in Eu.
  exists (utoa (Z.abs z)), u. split; [repeat split; auto|]. split; auto.
  destruct Hid as [<-|[<-|[]]]; unfold fx_apply; simpl zfind; cbv iota; rewrite Eu; reflexivity.
Qed.

Lemma fmul_one : forall x, f_is_finite x = true ->
  B2R (fmul x (f_of_Z 1)) = B2R x /\ f_is_finite (fmul x (f_of_Z 1)) = true /\ Bsign (fmul x (f_of_Z 1)) = Bsign x.
Proof.
  Local Transparent fmul.
  intros x F. destruct (f_of_Z_exact 1) as [O1 O2]; [lia|].
  assert (OS : Bsign (f_of_Z 1) = false) by (vm_compute; reflexivity).
  pose proof (Bmult_correct 53 1024 prec53 prec_emax mode_NE x (f_of_Z 1)) as Hc.
  simpl round_mode in Hc. change (BinarySingleNaN.B2R (f_of_Z 1)) with (B2R (f_of_Z 1)) in Hc. rewrite O1, Rmult_1_r in Hc.
  rewrite (round_generic radix2 fexp64 ZnearestE) in Hc by (typeclasses eauto || apply B2R_format).
  rewrite Rlt_bool_true in Hc by apply abs_B2R_lt_emax.
  destruct Hc as (H1 & H2 & H3). unfold fmul, f_is_finite in *. rewrite H2, F, O2. split; auto. split; auto.
  rewrite H3; [rewrite OS; apply xorb_false_r|].
  rewrite F, O2 in H2. simpl in H2. destruct (Bmult mode_NE x (f_of_Z 1)); auto; discriminate.
  Local Opaque fmul.
Qed.

(** what %4.2f prints *)
Lemma pad4 : forall t x s p, shows_fixed 2 x s t -> p <= 4 -> pad_left 32 p t = t.
Proof.
  intros t x s p H Hp. pose proof (shows_fixed_len _ _ _ _ H). unfold pad_left.
  replace (Z.to_nat (p - zlen t)) with 0%nat by lia. reflexivity.
Qed.
Lemma two_decimals : forall y, f_is_finite y = true -> exists t, shows_fixed 2 (B2R y) (Bsign y) t /\
  sprintf_float (sf_42f false) y = t /\ sprintf_float (sf_42f true) y = t ++ [37].
Proof.
  intros y F. pose proof (format_f_fixed 2 y ltac:(lia) F) as H.
  exists (format_f 2 y). split; auto. unfold sprintf_float, sf_42f. cbn [fm_verb fm_prec fm_wid fm_pct].
  rewrite (pad4 _ _ _ 4 H) by lia. rewrite app_nil_r. auto.
Qed.

(** ** C67: two-decimal formats show the value correctly rounded *)
Theorem C67_two_decimals : forall x id v, In id [2; 60] -> f_is_finite v = true ->
  exists t, fx_apply x id (GF64 v) = Ok (t, true) /\ shows_fixed 2 (B2R v) (Bsign v) t.
Proof.
  intros x id v Hid F. destruct (fmul_one v F) as (E1 & E2 & E3).
  destruct (two_decimals _ E2) as (t & Ht & Es & _). rewrite E1, E3 in Ht.
  exists t. split; auto.
  destruct Hid as [<-|[<-|[]]]; unfold fx_apply; simpl zfind; cbv iota; cbn [ff_eval sprintf_text];
    change (wants_int (sf_42f false)) with false; cbv iota; rewrite Es; reflexivity.
Qed.

(** built-in formats 4 and 62, "#,##0.00", on floats *)
Theorem C23_builtin_floats : forall x id v, In id [4; 62] -> f_is_finite v = true ->
  exists ip fp u, shows_fixed 2 (B2R v) (Bsign v) (minus (Bsign v) ++ ip ++ [46] ++ fp) /\
    Forall (fun c => 48 <= c <= 57) ip /\ in_thousands ip u /\
    fx_apply x id (GF64 v) = Ok (minus (Bsign v) ++ u ++ [46] ++ fp, true).
Proof.
  intros x id v Hid F. destruct (fmul_one v F) as (E1 & E2 & E3).
  destruct (two_decimals _ E2) as (t & Ht & Es & _). rewrite E1, E3 in Ht.
  pose proof Ht as Ht0. destruct Ht as (ip & fp & Et & Hne & H1 & H2 & _).
  destruct (C23_commas (fx_1904 x) (FSprintf (sf_42f false) 1) (GF64 v) (Bsign v) ip ([46] ++ fp)) as (u & Hu & _ & Eu); auto.
  { cbn [ff_eval sprintf_text]. change (wants_int (sf_42f false)) with false. cbv iota. rewrite Es, Et. reflexivity. }
  { right. exists 46, fp. auto. }
  exists ip, fp, u. split; [rewrite Et in Ht0; exact Ht0|]. split; auto. split; auto.
  destruct Hid as [<-|[<-|[]]]; unfold fx_apply; simpl zfind; cbv iota; rewrite Eu; reflexivity.
Qed.

(** ** C24 negative parentheses *)
Theorem C24_parens : forall m f v s, ff_eval m f v = Ok s ->
  ff_eval m (FNegParens f) v =
    match s with
    | [] => Panic
    | c :: r => Ok (if c =? 45 then bs "(" ++ r ++ bs ")" else s)
    end.
Proof.
  intros m f v s E. cbn [ff_eval]. rewrite E. cbn [bind]. destruct s as [|c r]; auto.
  destruct (Z.eqb_spec c 45) as [->|N]; [reflexivity|].
  unfold neg_parens. destruct c as [|p|p]; auto.
  repeat match goal with |- context [match ?p with _ => _ end] => destruct p; auto; try congruence end.
Qed.

(** formats 37, 38 on integers *)
Theorem C24_builtin_integers : forall x id z, In id [37; 38] ->
  exists d u, nat_numeral (Z.abs z) d /\ in_thousands d u /\
    fx_apply x id (GInt KInt64 z) = Ok (if z <? 0 then bs "(" ++ u ++ bs ")" else u, true).
Proof.
  intros x id z Hid.
  destruct (C23_builtin_integers x 3 z) as (d & u & N & T & E); [simpl; auto|].
  exists d, u. split; auto. split; auto.
  assert (EI : ff_eval (fx_1904 x) (FCommas (FSprintf (sf_d false) 1)) (GInt KInt64 z) = Ok (minus (z <? 0) ++ u)).
  { unfold fx_apply in E. simpl zfind in E. cbv iota in E.
    destruct (ff_eval (fx_1904 x) (FCommas (FSprintf (sf_d false) 1)) (GInt KInt64 z)); try discriminate.
    cbn [bind] in E. congruence. }
  assert (U : exists c r, u = c :: r /\ c <> 45).
  { destruct N as (N1 & N2 & _). destruct T as (g & gs & T1 & T2 & T3 & _).
    destruct g as [|c g]; [rewrite zlen_nil in T3; lia|].
    destruct d as [|c' d]; [congruence|]. simpl in T1. injection T1 as -> _.
    inversion N2; subst. exists c'. destruct gs; simpl; eexists; split; try reflexivity; unfold is_dig in *; lia. }
  destruct U as (c & r & -> & Hc).
  apply C24_parens in EI. destruct (z <? 0); cbn [minus app] in EI; cbv beta iota in EI;
    [|replace (c =? 45) with false in EI by (symmetry; apply Z.eqb_neq; auto)];
    destruct Hid as [<-|[<-|[]]]; unfold fx_apply; simpl zfind; cbv iota; rewrite EI; reflexivity.
Qed.

(** formats 39, 40 on floats *)
Theorem C24_builtin_floats : forall x id v, In id [39; 40] -> f_is_finite v = true ->
  exists ip fp u, shows_fixed 2 (B2R v) (Bsign v) (minus (Bsign v) ++ ip ++ [46] ++ fp) /\
    Forall (fun c => 48 <= c <= 57) ip /\ in_thousands ip u /\
    fx_apply x id (GF64 v) =
      Ok (if Bsign v then bs "(" ++ u ++ bs "." ++ fp ++ bs ")" else u ++ bs "." ++ fp, true).
Proof.
  intros x id v Hid F.
  destruct (C23_builtin_floats x 4 v) as (ip & fp & u & S & D & T & E); [simpl; auto|auto|].
  exists ip, fp, u. split; auto. split; auto. split; auto.
  assert (EI : ff_eval (fx_1904 x) (FCommas (FSprintf (sf_42f false) 1)) (GF64 v) = Ok (minus (Bsign v) ++ u ++ [46] ++ fp)).
  { unfold fx_apply in E. simpl zfind in E. cbv iota in E.
    destruct (ff_eval (fx_1904 x) (FCommas (FSprintf (sf_42f false) 1)) (GF64 v)); try discriminate.
    cbn [bind] in E. congruence. }
  assert (U : exists c r, u = c :: r /\ c <> 45).
  { destruct T as (g & gs & T1 & T2 & T3 & _).
    destruct g as [|c g]; [rewrite zlen_nil in T3; lia|].
    destruct ip as [|c' ip]; [discriminate|]. simpl in T1. injection T1 as -> _.
    inversion D; subst. exists c'. destruct gs; simpl; eexists; split; try reflexivity; lia. }
  destruct U as (c & r & -> & Hc).
  apply C24_parens in EI. destruct (Bsign v); cbn [minus app] in EI; cbv beta iota in EI;
    [|replace (c =? 45) with false in EI by (symmetry; apply Z.eqb_neq; auto)];
    destruct Hid as [<-|[<-|[]]]; unfold fx_apply; simpl zfind; cbv iota; rewrite EI; try reflexivity;
    simpl; rewrite <- app_assoc; reflexivity.
Qed.

(** Refuted: the empty text makes these formats panic, and Set can put it in a cell.  After
    Set(r, c, "") on a cell with one of these formats, rendering the cell panics. *)
Theorem C24_empty_text_refuted : forall s r c s' v t f, reach_sheet s ->
  In f [3; 4; 61; 62; 37; 38; 39; 40] ->
  get_cell s r c = Ok [v; GCType t; GInt KUint16 f] ->
  set_value s r c (GStr []) = Ok s' -> r <= sh_nrows s -> c <= sh_ncols s ->
  exists cl, get_cell s' r c = Ok cl /\ cell_string (sh_fx s') cl = Panic.
Proof.
  intros s r c s' v t f _ Hf G E Hr Hc. unfold set_value in E.
  destruct (Z.ltb_spec (sh_nrows s) r); [lia|]. destruct (Z.ltb_spec (sh_ncols s) c); [lia|]. cbn [orb] in E.
  rewrite G in E. cbn [bind] in E. simpl in E.
  exists [GStr []; GCType StringCell; GInt KUint16 f]. split.
  - unfold put_cell in E. unfold get_cell in G |- *.
    destruct (idx (sh_rows s) r) as [row| | |] eqn:I1; try discriminate. cbn [bind] in *.
    apply idx_inv in I1 as I1'. destruct I1' as [B1 _]. apply idx_inv in G as G'. destruct G' as [B2 _].
    rewrite set_idx_ok in E by auto. cbn [bind] in E. rewrite set_idx_ok in E by auto. cbn [bind] in E.
    injection E as <-. cbn [sh_rows]. rewrite idx_upd by lia. rewrite Z.eqb_refl. cbn [bind].
    rewrite idx_upd by lia. rewrite Z.eqb_refl. reflexivity.
  - unfold cell_string. simpl cell_type. cbn [bind]. simpl format_no. cbn [bind cell_value].
    simpl in Hf. unfold fx_apply.
    repeat (destruct Hf as [<-|Hf]; [reflexivity|]). contradiction.
Qed.

(** ** C25 General *)
Theorem C25_general : forall x id v, In id [0; 49] ->
  match v with
  | GInt KInt64 z => exists t, fx_apply x id v = Ok (t, true) /\ numeral z t
  | GBool b => fx_apply x id v = Ok (if b then bs "TRUE" else bs "FALSE", true)
  | GStr s => fx_apply x id v = Ok (s, true)
  | _ => True
  end.
Proof.
  intros x id v Hid.
  assert (E : fx_apply x id v = Ok (ident_text v, true)) by (destruct Hid as [<-|[<-|[]]]; reflexivity).
  destruct v as [|b|k z|y|y|s|s|u|r|t|ct|s|s]; auto.
  destruct k; auto. exists (itoa z). split; [|apply itoa_numeral].
  rewrite E. unfold ident_text. cbv zeta. cbn [sprint]. destruct (zlen (itoa z) <=? 11); reflexivity.
Qed.

(** ** C26 sections *)
Lemma rm_delim_id : forall f o c s, Forall (fun b => b <> o) s -> (List.length s <= f)%nat -> rm_delim f o c s = s.
Proof.
  induction f; intros o c s H L; destruct s as [|x s]; simpl in *; try lia; auto.
  inversion H; subst. destruct (Z.eqb_spec x o); [contradiction|]. f_equal. apply IHf; auto. lia.
Qed.
Lemma rm_brackets_id : forall s, Forall (fun b => b <> 91) s -> rm_brackets s = s.
Proof. intros. apply rm_delim_id; auto. Qed.

Lemma containsb_byte : forall b s, containsb [b] s = true <-> In b s.
Proof.
  intros b. induction s as [|c s IH]; simpl; [intuition discriminate|].
  rewrite orb_true_iff, IH, andb_true_r, Z.eqb_eq. intuition.
Qed.

Lemma plain_make : forall p, plain_section p -> make_formatter p = make_section p.
Proof.
  intros p [H _]. unfold make_formatter. cbv zeta.
  assert (rm_brackets p = p) as -> by (apply rm_brackets_id; eapply Forall_impl; [|exact H]; simpl; tauto).
  destruct (containsb (bs ";") p) eqn:C; auto. exfalso.
  change (bs ";") with [59] in C. apply containsb_byte in C. rewrite Forall_forall in H. apply H in C. tauto.
Qed.

Lemma join_in : forall sep l b, In b (join sep l) -> In b sep \/ exists p, In p l /\ In b p.
Proof.
  induction l as [|p l IH]; intros b H; [destruct H|].
  destruct l as [|q l]; [right; exists p; simpl; auto|].
  change (join sep (p :: q :: l)) with (p ++ sep ++ join sep (q :: l)) in H.
  apply in_app_or in H as [H|H]; [right; exists p; simpl; auto|].
  apply in_app_or in H as [H|H]; [auto|].
  apply IH in H as [H|(r & H1 & H2)]; auto. right. exists r. simpl in *. tauto.
Qed.

Lemma to_lower_59 : forall s, In 59 s -> to_lower s <> bs "general".
Proof.
  intros s H E. assert (In 59 (to_lower s)) as I by (unfold to_lower; apply in_map_iff; exists 59; auto).
  rewrite E in I. simpl in I. repeat (destruct I as [I|I]; [discriminate|]). destruct I.
Qed.

Lemma sections_make : forall p q rest, Forall plain_section (p :: q :: rest) ->
  fst (make_formatter (join [59] (p :: q :: rest))) =
  switch_fmt (fst (make_section p)) (map (fun q => fst (make_section q)) (q :: rest)).
Proof.
  intros p q rest H. set (parts := p :: q :: rest) in *.
  assert (B : Forall (fun b => b <> 91) (join [59] parts)).
  { apply Forall_forall. intros b Hb. apply join_in in Hb as [[<-|[]]|(r & H1 & H2)]; [lia|].
    rewrite Forall_forall in H. destruct (H r H1) as [H3 _]. rewrite Forall_forall in H3. apply H3 in H2. tauto. }
  unfold make_formatter. cbv zeta. rewrite rm_brackets_id by auto.
  assert (C : containsb (bs ";") (join [59] parts) = true).
  { change (bs ";") with [59]. apply containsb_byte. unfold parts.
    change (join [59] (p :: q :: rest)) with (p ++ [59] ++ join [59] (q :: rest)).
    apply in_or_app. right. left. reflexivity. }
  rewrite C. rewrite split_join.
  - unfold parts. destruct (make_section p) eqn:E. reflexivity.
  - discriminate.
  - eapply Forall_impl; [|exact H]. intros s [Hs _] Hin. rewrite Forall_forall in Hs. apply Hs in Hin. tauto.
Qed.

Lemma f_of_Z_class : forall z, Z.abs z <= 2 ^ 64 ->
  feq (f_of_Z z) f_zero = (z =? 0) /\ flt (f_of_Z z) f_zero = (z <? 0).
Proof.
  intros z Hz. destruct (f_of_Z_round z) as [E F].
  { apply Z.le_trans with (2 ^ 64); auto. apply Z.pow_le_mono_r; lia. }
  assert (G1 : z < 0 -> (B2R (f_of_Z z) <= -1)%R).
  { intros. rewrite E. replace (-1)%R with (RN (IZR (-1))) by (rewrite RN_Z; [reflexivity|lia]). apply RN_le. apply IZR_le. lia. }
  assert (G2 : 0 < z -> (1 <= B2R (f_of_Z z))%R).
  { intros. rewrite E. replace 1%R with (RN (IZR 1)) by (rewrite RN_Z; [reflexivity|lia]). apply RN_le. apply IZR_le. lia. }
  assert (G3 : z = 0 -> B2R (f_of_Z z) = 0%R).
  { intros ->. rewrite E. rewrite RN_Z by lia. reflexivity. }
  assert (EQ : feq (f_of_Z z) f_zero = true <-> B2R (f_of_Z z) = 0%R) by (rewrite feq_real; auto; reflexivity).
  assert (LT : flt (f_of_Z z) f_zero = true <-> (B2R (f_of_Z z) < 0)%R) by (rewrite flt_real; auto; reflexivity).
  destruct (Z.eqb_spec z 0), (Z.ltb_spec z 0); try lia;
    destruct (feq (f_of_Z z) f_zero) eqn:Q1, (flt (f_of_Z z) f_zero) eqn:Q2; auto; exfalso;
    repeat match goal with
    | H : true = true <-> _ |- _ => apply proj1 in H; specialize (H eq_refl)
    | H : false = true <-> _ |- _ => apply proj2 in H
    end;
    repeat match goal with
    | H : z = 0 -> _, K : z = 0 |- _ => specialize (H K)
    | H : z < 0 -> _, K : z < 0 |- _ => specialize (H K)
    | H : 0 < z -> _ |- _ => specialize (H ltac:(lia))
    end; try lra;
    try (assert (X : false = true) by (apply EQ; lra); discriminate);
    try (assert (X : false = true) by (apply LT; lra); discriminate).
Qed.

Lemma sign_class_spec : forall x, (sign_class x =? 0) = feq x f_zero /\ (sign_class x <? 0) = flt x f_zero.
Proof.
  intros [s|s| |s m e H]; try (split; reflexivity); destruct s; split; reflexivity.
Qed.

(** the section chosen by a switch *)
Lemma switch_chosen : forall m pos others v, proper v ->
  ff_eval m (switch_fmt pos others) v =
  match value_class v with
  | None => ff_eval m (nth 2 others FIdent) v
  | Some c => ff_eval m (if c =? 0 then nth 1 others pos else if c <? 0 then nth 0 others pos else pos) v
  end.
Proof.
  intros m pos others v Hp. unfold switch_fmt. cbn [ff_eval].
  destruct v as [|b|k z|y|y|s|s|u|r|t|ct|s|s]; cbn [to_f64 value_class]; auto.
  - destruct (f_of_Z_class (if b then 1 else 0)) as [H1 H2]; [destruct b; lia|]. rewrite H1, H2.
    destruct b; reflexivity.
  - assert (Z.abs z <= 2 ^ 64) by (simpl in Hp; destruct k; simpl in Hp; lia).
    destruct (f_of_Z_class z) as [H1 H2]; auto. rewrite H1, H2.
    replace (Z.sgn z =? 0) with (z =? 0) by lia. replace (Z.sgn z <? 0) with (z <? 0) by lia.
    destruct (z =? 0); auto. destruct (z <? 0); auto.
  - destruct (sign_class_spec y) as [-> ->]. destruct (feq y f_zero); auto. destruct (flt y f_zero); auto.
  - destruct (sign_class_spec y) as [-> ->]. destruct (feq y f_zero); auto. destruct (flt y f_zero); auto.
  - destruct (parse_float s) as [y []]; auto.
    destruct (sign_class_spec y) as [-> ->]. destruct (feq y f_zero); auto. destruct (flt y f_zero); auto.
Qed.

(** A format of two or more sections shows a value as the format consisting of only the selected
    section would. *)
Theorem C26_sections : forall x id p q rest v, proper v ->
  ~ builtin id -> zfind id (fx_codes x) = None -> Forall plain_section (p :: q :: rest) ->
  fx_apply (fst (fx_add x id (join (bs ";") (p :: q :: rest)))) id v =
  match chosen_section (p :: q :: rest) v with
  | Some sec => fx_apply (fst (fx_add x id sec)) id v
  | None => fx_apply x 0 v
  end.
Proof.
  intros x id p q rest v Hv Hb Hc HP. change (bs ";") with [59].
  assert (Hb' : zfind id go_formatters = None).
  { unfold builtin in Hb. destruct (zfind id go_formatters); auto. exfalso. apply Hb. discriminate. }
  set (parts := p :: q :: rest) in *.
  assert (A : forall sec, to_lower sec <> bs "general" ->
     fx_apply (fst (fx_add x id sec)) id v = (s <- ff_eval (fx_1904 x) (fst (make_formatter sec)) v ;; Ok (s, true))).
  { intros sec Hs. unfold fx_add. apply str_eqb_neq in Hs. rewrite Hs, Hb', Hc.
    destruct (make_formatter sec) as [ff ct]. unfold fx_apply. cbn [fst fx_codes fx_1904].
    rewrite Hb', zfind_zput, Z.eqb_refl. reflexivity. }
  rewrite A.
  2: { apply to_lower_59. unfold parts. change (join [59] (p :: q :: rest)) with (p ++ [59] ++ join [59] (q :: rest)).
       apply in_or_app. right. left. reflexivity. }
  unfold parts at 1. rewrite sections_make by auto. rewrite switch_chosen by auto.
  assert (SEC : forall sec, In sec parts ->
     fx_apply (fst (fx_add x id sec)) id v = (s <- ff_eval (fx_1904 x) (fst (make_section sec)) v ;; Ok (s, true))).
  { intros sec Hin. rewrite Forall_forall in HP. specialize (HP sec Hin).
    rewrite A by apply HP. rewrite plain_make by auto. reflexivity. }
  unfold chosen_section. destruct (value_class v) as [c|].
  - assert (IN : forall i, In (nth i parts (hd [] parts)) parts).
    { intros i. destruct (nth_in_or_default i parts (hd [] parts)) as [H|H]; auto. rewrite H. left. reflexivity. }
    rewrite SEC by apply IN. f_equal.
    assert (N : forall i, nth i (map (fun q => fst (make_section q)) (q :: rest)) (fst (make_section p)) =
                     fst (make_section (nth (S i) parts (hd [] parts)))).
    { intros i. unfold parts. cbn [nth hd]. exact (map_nth (fun q => fst (make_section q)) (q :: rest) p i). }
    destruct (c =? 0); [rewrite N; reflexivity|]. destruct (c <? 0); [rewrite N; reflexivity|]. reflexivity.
  - unfold parts. cbn [nth_error]. destruct rest as [|r rest]; [reflexivity|].
    cbn [nth_error map nth]. destruct rest as [|t rest]; [reflexivity|].
    cbn [nth_error map nth]. rewrite SEC by (unfold parts; simpl; auto). reflexivity.
Qed.

(** ** C27 histories of Add *)
Lemma adds_cons : forall x p l, adds x (p :: l) = adds (fst (fx_add x (fst p) (snd p))) l.
Proof. reflexivity. Qed.

Lemma fx_add_1904 : forall x id code, fx_1904 (fst (fx_add x id code)) = fx_1904 x.
Proof.
  intros. unfold fx_add. destruct (str_eqb _ _); auto. destruct (zfind id go_formatters); auto.
  destruct (zfind id (fx_codes x)); auto. destruct (make_formatter code); auto.
Qed.

Theorem C27_builtin_fixed : forall l x id v, builtin id ->
  fx_apply (adds x l) id v = fx_apply x id v /\ fx_get (adds x l) id = fx_get x id.
Proof.
  induction l as [|[i c] l IH]; intros x id v Hb; [auto|].
  rewrite adds_cons. cbn [fst snd]. destruct (IH (fst (fx_add x i c)) id v Hb) as [-> ->].
  unfold fx_apply, fx_get, builtin in *. rewrite fx_add_1904. destruct (zfind id go_formatters); [auto|congruence].
Qed.

Theorem C27_rejected_unchanged : forall x id code,
  ~ is_general code -> builtin id \/ zfind id (fx_codes x) <> None ->
  exists e, fx_add x id code = (x, Some e).
Proof.
  intros x id code Hg H. unfold fx_add. apply str_eqb_neq in Hg. rewrite Hg. unfold builtin in H.
  destruct (zfind id go_formatters); [eauto|]. destruct (zfind id (fx_codes x)); [eauto|].
  destruct H; congruence.
Qed.

(** an Add that is not rejected defines the id, and later calls that are not "General" for this id
    do not change it *)
Lemma later_adds : forall l x id ff, ~ builtin id -> zfind id (fx_codes x) = Some ff ->
  Forall (fun p => fst p = id -> ~ is_general (snd p)) l ->
  zfind id (fx_codes (adds x l)) = Some ff /\ fx_1904 (adds x l) = fx_1904 x /\
  zfind id (fx_types (adds x l)) = zfind id (fx_types x).
Proof.
  induction l as [|[i c] l IH]; intros x id ff Hb Hx HF; [auto|].
  inversion HF as [|? ? Hic HF']; subst. rewrite adds_cons. cbn [fst snd] in *.
  assert (K : zfind id (fx_codes (fst (fx_add x i c))) = Some ff /\
              zfind id (fx_types (fst (fx_add x i c))) = zfind id (fx_types x)).
  { unfold fx_add. destruct (str_eqb (to_lower c) (bs "general")) eqn:G.
    - apply str_eqb_eq in G. cbn [fst fx_codes fx_types]. rewrite zfind_zput.
      destruct (Z.eqb_spec id i); [|auto]. subst i. exfalso. apply Hic; auto.
    - destruct (zfind i go_formatters); auto. destruct (zfind i (fx_codes x)) eqn:C; auto.
      destruct (make_formatter c) as [f ct]. cbn [fst fx_codes fx_types]. rewrite !zfind_zput.
      destruct (Z.eqb_spec id i); [subst; congruence|auto]. }
  destruct K as [K1 K2]. destruct (IH _ id ff Hb K1 HF') as (A & B & C).
  rewrite A, B, C, K2, fx_add_1904. auto.
Qed.

Theorem C27_first_wins : forall x id code l v,
  ~ builtin id -> zfind id (fx_codes x) = None -> ~ is_general code ->
  Forall (fun p => fst p = id -> ~ is_general (snd p)) l ->
  let x1 := fst (fx_add x id code) in
  snd (fx_add x id code) = None /\
  fx_apply (adds x1 l) id v = fx_apply x1 id v /\ fx_cell_type (adds x1 l) id = fx_cell_type x1 id.
Proof.
  intros x id code l v Hb Hn Hg HF. cbv zeta.
  assert (Hb' : zfind id go_formatters = None).
  { unfold builtin in Hb. destruct (zfind id go_formatters); auto. exfalso. apply Hb. discriminate. }
  apply str_eqb_neq in Hg.
  assert (E : exists ff, zfind id (fx_codes (fst (fx_add x id code))) = Some ff /\ snd (fx_add x id code) = None).
  { unfold fx_add. rewrite Hg, Hb', Hn. destruct (make_formatter code) as [ff ct].
    exists ff. cbn [fst snd fx_codes]. rewrite zfind_zput, Z.eqb_refl. auto. }
  destruct E as (ff & E1 & E2). split; auto.
  destruct (later_adds l _ id ff Hb E1 HF) as (A & B & C).
  unfold fx_apply, fx_cell_type. rewrite A, B, C, E1. auto.
Qed.

(** "General" does replace a custom format, but the cell type of the old format stays *)
Theorem C27_general_replaces_refuted : forall x id code v, ~ builtin id -> is_general code ->
  let x1 := fst (fx_add x id code) in
  fx_apply x1 id v = fx_apply x 0 v /\ fx_cell_type x1 id = fx_cell_type x id.
Proof.
  intros x id code v Hb Hg. cbv zeta.
  assert (Hb' : zfind id go_formatters = None).
  { unfold builtin in Hb. destruct (zfind id go_formatters); auto. exfalso. apply Hb. discriminate. }
  apply str_eqb_eq in Hg. unfold fx_add. rewrite Hg. unfold fx_apply. cbn [fst fx_codes fx_1904].
  rewrite Hb', zfind_zput, Z.eqb_refl. split; reflexivity.
Qed.

(** ** C28 unknown format ids *)

(** Apply panics exactly for ids that Get does not report (on values that print as something). *)
Theorem C28_unknown_panics_refuted : forall x id v, reach_fx x -> printable v ->
  (fx_apply x id v = Panic <-> ~ known x id).
Proof.
  intros x id v Hx Hv. unfold known. split.
  - intros E K. destruct (fx_apply_safe x id v Hx K Hv) as [s Es]. congruence.
  - intros K. unfold fx_get, fx_apply in *. destruct (zfind id go_formatters); [exfalso; apply K; reflexivity|].
    destruct (zfind id (fx_codes x)); [exfalso; apply K; reflexivity|]. reflexivity.
Qed.

(** a cell with an unknown format id cannot be rendered *)
Theorem C28_cell_panics_refuted : forall x v f c, reach_fx x -> 0 < f -> ~ known x f ->
  put_cell_spec x v f c -> ~ merge_mark v -> ~ (exists t, holds v GNil t) -> cell_string x c = Panic.
Proof.
  intros x v f c Hx Hf Hk Hp Hm Hnb. destruct Hp as [[H _]|(_ & v0 & t0 & v' & t' & Hh & -> & Hc)]; [contradiction|].
  assert (Ef : (f =? 0) = false) by lia. rewrite Ef in *.
  assert (T : fx_cell_type x f = None \/ fx_cell_type x f <> None) by (destruct (fx_cell_type x f); auto; right; discriminate).
  assert (NT : t' <> BlankCell /\ t' <> StaticCell).
  { destruct (fx_cell_type x f) as [ct|] eqn:EC.
    - pose proof (fx_cell_type_range x f ct Hx EC) as R.
      destruct (ctype_eqb t0 ct) eqn:Q.
      + destruct Hc as [_ ->]. destruct Hh; try (split; discriminate); exfalso; apply Hnb; eexists; econstructor.
      + destruct Hc; try (split; discriminate). exfalso. apply Hnb. eexists. eauto.
    - destruct Hc as [_ ->]. destruct Hh; try (split; discriminate); exfalso; apply Hnb; eexists; econstructor. }
  destruct NT as [N1 N2]. unfold cell_string. cbn [app].
  change (cell_type [v'; GCType t'; GInt KUint16 f]) with (Ok t'). cbn [bind].
  assert (A : fx_apply x f v' = Panic).
  { unfold known, fx_get, fx_apply in *. destruct (zfind f go_formatters); [exfalso; apply Hk; reflexivity|].
    destruct (zfind f (fx_codes x)); [exfalso; apply Hk; reflexivity|]. reflexivity. }
  change (format_no [v'; GCType t'; GInt KUint16 f]) with (Ok f).
  change (cell_value [v'; GCType t'; GInt KUint16 f]) with v'.
  destruct t'; try congruence; cbn [bind]; rewrite A; reflexivity.
Qed.

Lemma delivers_fx : forall A (o1 o2 : sheet -> res A) x s l, delivers o1 s l -> sh_fx s = x ->
  (forall s, sh_fx s = x -> o1 s = o2 s) -> delivers o2 s l.
Proof.
  intros A o1 o2 x s l D. induction D as [s s' N|s s' a l N O D IH]; intros Hx HE.
  - econstructor; eauto.
  - assert (sh_fx s' = x).
    { unfold next in N. destruct (_ <? _); [discriminate|]. injection N as <-. auto. }
    econstructor; eauto. rewrite <- HE; auto.
Qed.

(** With known format ids only, a sheet built by Put is rendered without panic, whatever the values. *)
Theorem C28_known_ids_render : forall x l, reach_fx x -> Forall good_put l ->
  Forall (fun o => match o with OPut _ _ _ f => known x f | OResize _ _ => True end) l ->
  exists s', run_ops (empty_sheet x) l = Ok s' /\ exists out, delivers strings s' out.
Proof.
  intros x l Hx HP HK.
  destruct (run_puts_spec x l (empty_sheet x) Hx (wf_empty x) eq_refl HP) as (s' & E & Hw & Ex & Hc & _).
  exists s'. split; auto.
  set (g := fun c => match cell_string x c with Ok s => s | _ => [] end).
  eexists. eapply (delivers_fx _ (row_map (cell_string x) []) strings x); [|exact Ex|intros s0 <-; reflexivity].
  apply (delivers_map _ (cell_string x) [] s' g); auto.
  intros r c Hr Hcc. specialize (Hc r c).
  destruct (last_put l r c) as [[v f]|] eqn:L.
  - assert (K : known x f).
    { clear - L HK. induction l as [|o l IH]; simpl in L; [discriminate|]. inversion HK; subst.
      destruct (last_put l r c) as [[v1 f1]|] eqn:L1; [injection L as -> ->; auto|].
      destruct o as [r1 c1 v1 f1|]; [|discriminate]. destruct ((r1 =? r) && (c1 =? c)); [|discriminate].
      injection L as -> ->. auto. }
    destruct (put_cell_string_ok x v f _ Hx K Hc) as [s Es]. unfold g. rewrite Es. reflexivity.
  - rewrite Hc. assert (content (empty_sheet x) r c = []) as ->.
    { unfold content, get_cell, empty_sheet. simpl. unfold idx. destruct (0 <=? r); auto. destruct (Z.to_nat r); auto. }
    reflexivity.
Qed.

(** ** C29 percent formats *)
Lemma fmul_100 : forall v, f_is_finite v = true -> (Rabs (B2R v) <= bpow radix2 1000)%R ->
  let y := fmul v (f_of_Z 100) in
  B2R y = RN (B2R v * 100) /\ f_is_finite y = true /\ Bsign y = Bsign v.
Proof.
  Local Transparent fmul.
  intros x F HB. cbv zeta. destruct (f_of_Z_exact 100) as [O1 O2]; [lia|].
  assert (OS : Bsign (f_of_Z 100) = false) by (vm_compute; reflexivity).
  pose proof (Bmult_correct 53 1024 prec53 prec_emax mode_NE x (f_of_Z 100)) as Hc.
  simpl round_mode in Hc. change (BinarySingleNaN.B2R (f_of_Z 100)) with (B2R (f_of_Z 100)) in Hc. rewrite O1 in Hc.
  rewrite Rlt_bool_true in Hc.
  2: { apply bpow_emax_big. rewrite Rabs_mult, (Rabs_pos_eq 100) by lra.
       apply Rle_trans with (bpow radix2 1000 * bpow radix2 7)%R.
       - apply Rmult_le_compat; try apply Rabs_pos; try lra. simpl. lra.
       - rewrite <- bpow_plus. apply bpow_le. lia. }
  destruct Hc as (H1 & H2 & H3). unfold fmul, f_is_finite in *. rewrite H2, F, O2. split; auto. split; auto.
  rewrite H3; [rewrite OS; apply xorb_false_r|].
  rewrite F, O2 in H2. simpl in H2. destruct (Bmult mode_NE x (f_of_Z 100)); auto; discriminate.
  Local Opaque fmul.
Qed.

(** formats 10 and 68 ("0.00%"): the hundredfold (as a float64), correctly rounded to two decimals *)
Lemma percent_decimals : forall x id v, In id [10; 68] -> f_is_finite v = true ->
  (Rabs (B2R v) <= bpow radix2 1000)%R ->
  exists t, fx_apply x id (GF64 v) = Ok (t ++ bs "%", true) /\ shows_fixed 2 (RN (B2R v * 100)) (Bsign v) t.
Proof.
  intros x id v Hid F HB. destruct (fmul_100 v F HB) as (E1 & E2 & E3).
  destruct (two_decimals _ E2) as (t & Ht & _ & Es). rewrite E1, E3 in Ht.
  exists t. split; auto.
  destruct Hid as [<-|[<-|[]]]; unfold fx_apply; simpl zfind; cbv iota; cbn [ff_eval sprintf_text];
    change (wants_int (sf_42f true)) with false; cbv iota; rewrite Es; reflexivity.
Qed.

(** formats 9 and 67 ("0%"): the hundredfold truncated *)
Lemma percent_truncates : forall x id v, In id [9; 67] -> f_is_finite v = true ->
  (Rabs (B2R v) <= IZR (2 ^ 50))%R ->
  exists t, fx_apply x id (GF64 v) = Ok (t ++ bs "%", true) /\ numeral (Ztrunc (RN (B2R v * 100))) t.
Proof.
  intros x id v Hid F HB.
  assert (HB' : (Rabs (B2R v) <= bpow radix2 1000)%R).
  { apply Rle_trans with (1 := HB). rewrite IZR_pow2 by lia. apply bpow_le. lia. }
  destruct (fmul_100 v F HB') as (E1 & E2 & _).
  exists (itoa (Ztrunc (RN (B2R v * 100)))). split; [|apply itoa_numeral].
  assert (R : (- 2 ^ 57 <= Ztrunc (RN (B2R v * 100)) <= 2 ^ 57)%Z).
  { assert (A : (Rabs (RN (B2R v * 100)) <= bpow radix2 57)%R).
    { apply abs_round_le_generic; try typeclasses eauto.
      - apply generic_format_bpow. unfold fexp64, SpecFloat.fexp, SpecFloat.emin. lia.
      - rewrite Rabs_mult, (Rabs_pos_eq 100) by lra. change 57 with (50 + 7). rewrite bpow_plus.
        rewrite IZR_pow2 in HB by lia. apply Rmult_le_compat; try apply Rabs_pos; try lra. simpl. lra. }
    apply Rabs_le_inv in A as [A1 A2]. rewrite <- IZR_pow2 in A1, A2 by lia. rewrite <- opp_IZR in A1. split.
    - rewrite <- (Ztrunc_IZR (- 2 ^ 57)). apply Ztrunc_le. auto.
    - rewrite <- (Ztrunc_IZR (2 ^ 57)). apply Ztrunc_le. auto. }
  assert (TI : f_to_int64 (fmul v (f_of_Z 100)) = Ztrunc (RN (B2R v * 100))).
  { rewrite f_to_int64_trunc; auto; rewrite E1; auto. unfold two63. lia. }
  assert (S : sprintf_int (sf_d true) KInt64 (Ztrunc (RN (B2R v * 100))) = itoa (Ztrunc (RN (B2R v * 100))) ++ bs "%").
  { unfold sprintf_int, sf_d, int_text. cbn [fm_verb fm_prec fm_wid fm_pct]. unfold pad_left.
    set (s := itoa _). replace (Z.to_nat (0 - zlen s)) with 0%nat by (pose proof (zlen_nonneg _ s); lia). reflexivity. }
  destruct Hid as [<-|[<-|[]]]; unfold fx_apply; simpl zfind; cbv iota; cbn [ff_eval sprintf_text];
    change (wants_int (sf_d true)) with true; cbv iota; rewrite TI, S; reflexivity.
Qed.

(** a custom "0%" format stores the truncated value and shows it unscaled *)
Theorem C29_custom_percent_refuted : forall x id v, reach_fx x -> ~ builtin id -> 0 < id ->
  zfind id builtin_types = None -> zfind id (fx_codes x) = None ->
  let x' := fst (fx_add x id (bs "0%")) in
  exists c, make_put_cell x' (GF64 v) id = Ok c /\
    cell_string x' c = Ok (itoa (f_to_int64 v) ++ bs "%").
Proof.
  intros x id v Hx Hb Hid Ht Hn. cbv zeta.
  assert (Hb' : zfind id go_formatters = None).
  { unfold builtin in Hb. destruct (zfind id go_formatters); auto. exfalso. apply Hb. discriminate. }
  assert (M : make_formatter (bs "0%") = (FSurround [] (FSprintf (mkFmt 0 None VD false) 100) (bs "%"), IntegerCell)) by (vm_compute; reflexivity).
  unfold fx_add. replace (str_eqb (to_lower (bs "0%")) (bs "general")) with false by reflexivity.
  rewrite Hb', Hn, M. cbn [fst].
  assert (CT : fx_cell_type (mkFormatter (fx_1904 x) (zput id (FSurround [] (FSprintf (mkFmt 0 None VD false) 100) (bs "%")) (fx_codes x))
     (zput id IntegerCell (fx_types x))) id = Some IntegerCell).
  { unfold fx_cell_type. cbn [fx_types]. rewrite Ht, zfind_zput, Z.eqb_refl. reflexivity. }
  assert (Ef : (id =? 0) = false) by lia.
  exists [GInt KInt64 (f_to_int64 v); GCType IntegerCell; GInt KUint16 id]. split.
  - unfold make_put_cell. rewrite CT, Ef. unfold new_cell_with_type. cbn -[f_to_int64 set_format_number].
    rewrite (set_format_pair _ IntegerCell), Ef. reflexivity.
  - unfold cell_string. set (vv := GInt KInt64 (f_to_int64 v)).
    change (cell_type [vv; GCType IntegerCell; GInt KUint16 id]) with (Ok IntegerCell).
    change (format_no [vv; GCType IntegerCell; GInt KUint16 id]) with (Ok id).
    change (cell_value [vv; GCType IntegerCell; GInt KUint16 id]) with vv. cbn [bind]. subst vv.
    unfold fx_apply. cbn [fx_codes fx_1904]. rewrite Hb', zfind_zput, Z.eqb_refl.
    cbn [ff_eval bind sprintf_text]. unfold sprintf_int, int_text. cbn [fm_verb fm_prec fm_wid fm_pct]. unfold pad_left.
    set (s := itoa _). replace (Z.to_nat (0 - zlen s)) with 0%nat by (pose proof (zlen_nonneg _ s); lia).
    cbn [repeat]. simpl app. rewrite !app_nil_r. reflexivity.
Qed.

(** ** C19 text under a format *)
Lemma text_shown : forall x f s, reach_fx x -> In f [0; 49] ->
  s <> [] -> ~ merge_mark (GStr s) ->
  exists c, make_put_cell x (GStr s) f = Ok c /\ cell_string x c = Ok s.
Proof.
  intros x f s Hx Hf Hs Hm.
  assert (IM : is_merge_mark s = false) by (destruct (is_merge_mark s) eqn:E; auto; apply is_merge_mark_spec in E; contradiction).
  unfold make_put_cell. rewrite IM.
  destruct s as [|a s]; [congruence|].
  destruct Hf as [<-|[<-|[]]].
  - exists [GStr (a :: s); GCType StringCell]. split; [|reflexivity].
    destruct (fx_cell_type x 0); reflexivity.
  - exists [GStr (a :: s); GCType StringCell; GInt KUint16 49]. split; reflexivity.
Qed.

Lemma parse_int_syntax : forall s, snd (parse_int 64 s) = PSyntax -> fst (parse_int 64 s) = 0.
Proof.
  intros [|c r]; auto. unfold parse_int. cbv zeta.
  destruct (parse_uint 64 _) as [un []]; auto; repeat (destruct (_ && _)); cbn [snd]; discriminate.
Qed.

(** Refuted: under an integer format all texts that are not numbers become the same cell, 0 *)
Theorem C19_text_lost_refuted : forall x f s, 0 < f -> fx_cell_type x f = Some IntegerCell ->
  s <> [] -> ~ merge_mark (GStr s) -> snd (parse_int 64 s) = PSyntax ->
  make_put_cell x (GStr s) f = Ok [GInt KInt64 0; GCType IntegerCell; GInt KUint16 f].
Proof.
  intros x f s Hf Ht Hs Hm Hp.
  assert (IM : is_merge_mark s = false) by (destruct (is_merge_mark s) eqn:E; auto; apply is_merge_mark_spec in E; contradiction).
  assert (Ef : (f =? 0) = false) by lia.
  unfold make_put_cell. rewrite IM, Ht, Ef. destruct s as [|a s]; [congruence|].
  unfold new_cell_with_type. cbn -[parse_int set_format_number]. rewrite parse_int_syntax by auto.
  rewrite (set_format_pair _ IntegerCell), Ef. reflexivity.
Qed.

(** ... and under a date format a text that is not a number is shown as an error message *)
Theorem C19_date_text_refuted : forall x s y e, reach_fx x -> s <> [] -> ~ merge_mark (GStr s) ->
  parse_float s = (y, e) -> e <> PNone ->
  exists c, make_put_cell x (GStr s) 14 = Ok c /\
    cell_string x c = Ok (bs "MUST BE time.Time OR numeric TO FORMAT CORRECTLY").
Proof.
  intros x s y e Hx Hs Hm Hp He.
  assert (IM : is_merge_mark s = false) by (destruct (is_merge_mark s) eqn:E; auto; apply is_merge_mark_spec in E; contradiction).
  unfold make_put_cell. rewrite IM. destruct s as [|a s]; [congruence|].
  exists [GStr (a :: s); GCType DateCell; GInt KUint16 14]. split; [reflexivity|].
  unfold cell_string. set (vv := GStr (a :: s)) in *.
  change (cell_type [vv; GCType DateCell; GInt KUint16 14]) with (Ok DateCell).
  change (format_no [vv; GCType DateCell; GInt KUint16 14]) with (Ok 14).
  change (cell_value [vv; GCType DateCell; GInt KUint16 14]) with vv. cbn [bind].
  unfold fx_apply. simpl zfind. cbv iota. cbn [ff_eval]. unfold time_text, to_f64. subst vv. cbv beta iota. rewrite Hp.
  destruct e; try congruence; reflexivity.
Qed.

(** an empty text under the text format is shown as "<nil>" *)
Theorem C19_empty_text_refuted : forall x, reach_fx x ->
  exists c, make_put_cell x (GStr []) 49 = Ok c /\ cell_string x c = Ok (bs "<nil>").
Proof.
  intros x _. exists [GStr (bs "<nil>"); GCType StringCell; GInt KUint16 49]. split; reflexivity.
Qed.

(** ** Examples: the hypotheses are met, and the displayed texts *)
Definition shows (x : formatter) (id : Z) (v : goval) (t : gostr) : bool :=
  match fx_apply x id v with Ok (s, true) => str_eqb s t | _ => false end.
Definition fl (s : gostr) : f64 := fst (parse_float s).

Example ex_C23 : in_thousands (bs "1234567") (bs "1,234,567").
Proof.
  exists (bs "1"), [bs "234"; bs "567"]. split; [reflexivity|]. split; [reflexivity|].
  split; [vm_compute; split; discriminate|]. repeat constructor.
Qed.
Example ex_C23_apply :
  shows new_formatter 3 (GInt KInt64 (-1234567)) (bs "-1,234,567") = true /\
  shows new_formatter 3 (GInt KInt64 999) (bs "999") = true /\
  shows new_formatter 4 (GF64 (fl (bs "-1234567.891"))) (bs "-1,234,567.89") = true /\
  f_is_finite (fl (bs "-1234567.891")) = true.
Proof. repeat split; vm_compute; reflexivity. Qed.
Example ex_C24_apply :
  shows new_formatter 37 (GInt KInt64 (-1234)) (bs "(1,234)") = true /\
  shows new_formatter 37 (GInt KInt64 1234) (bs "1,234") = true /\
  shows new_formatter 39 (GF64 (fl (bs "-1234.5"))) (bs "(1,234.50)") = true.
Proof. repeat split; vm_compute; reflexivity. Qed.
Example ex_C24_empty : exists s s' cl, run_ops (empty_sheet new_formatter) [OPut 0 0 (GInt KInt64 5) 3] = Ok s /\
  set_value s 0 0 (GStr []) = Ok s' /\ get_cell s' 0 0 = Ok cl /\ cell_string (sh_fx s') cl = Panic.
Proof.
  destruct (run_ops (empty_sheet new_formatter) [OPut 0 0 (GInt KInt64 5) 3]) as [s| | |] eqn:E; try (vm_compute in E; discriminate).
  exists s. vm_compute in E. injection E as <-.
  eexists. eexists. split; [reflexivity|]. split; [reflexivity|]. split; reflexivity.
Qed.
Example ex_C25_apply :
  shows new_formatter 0 (GInt KInt64 (-9223372036854775808)) (bs "-9223372036854775808") = true /\
  shows new_formatter 49 (GBool true) (bs "TRUE") = true.
Proof. repeat split; vm_compute; reflexivity. Qed.

Definition ex_parts : list gostr := [bs "0.00"; bs "(0.00)"; bs "0"; bs "@"].
Example ex_C26_plain : Forall plain_section ex_parts /\ ~ builtin 170 /\ zfind 170 (fx_codes new_formatter) = None.
Proof.
  split; [|split; [intro H; apply H; reflexivity|reflexivity]].
  repeat constructor; try discriminate; intro E; vm_compute in E; discriminate.
Qed.
Example ex_C26_chosen :
  chosen_section ex_parts (GF64 (fl (bs "-2.5"))) = Some (bs "(0.00)") /\
  chosen_section ex_parts (GInt KInt64 0) = Some (bs "0") /\
  chosen_section ex_parts (GStr (bs "x")) = Some (bs "@") /\
  chosen_section (firstn 2 ex_parts) (GF64 (fl (bs "0"))) = Some (bs "0.00") /\
  chosen_section (firstn 2 ex_parts) (GStr (bs "x")) = None.
Proof. repeat split; vm_compute; reflexivity. Qed.
Example ex_C26_apply :
  let x := fst (fx_add new_formatter 170 (bs "0.00;(0.00);0;@")) in
  shows x 170 (GF64 (fl (bs "2.5"))) (bs "2.50") = true /\ shows x 170 (GStr (bs "x")) (bs "x") = true.
Proof. split; vm_compute; reflexivity. Qed.

Example ex_C27 : let x := adds new_formatter [(170, bs "0.00"); (170, bs "0"); (3, bs "0.00"); (171, bs "General")] in
  shows x 170 (GF64 (fl (bs "2.5"))) (bs "2.50") = true /\ shows x 3 (GInt KInt64 1000) (bs "1,000") = true /\
  shows x 171 (GInt KInt64 12) (bs "12") = true.
Proof. repeat split; vm_compute; reflexivity. Qed.
Example ex_C28 : known new_formatter 14 /\ ~ known new_formatter 5 /\ printable (GInt KInt64 1) /\
  known (fst (fx_add new_formatter 164 (bs "0.0"))) 164.
Proof. repeat split; try (vm_compute; reflexivity); vm_compute; discriminate. Qed.
Example ex_C28_panic : let s := match run_ops (empty_sheet new_formatter) [OPut 0 0 (GInt KInt64 1) 5] with Ok s => s | _ => empty_sheet new_formatter end in
  fst (next s) = true /\ strings (snd (next s)) = Panic.
Proof. split; vm_compute; reflexivity. Qed.

(** 29% is shown as 28% *)
Example ex_C29_refuted : shows new_formatter 9 (GF64 (fl (bs "0.29"))) (bs "28%") = true /\
  shows new_formatter 10 (GF64 (fl (bs "0.29"))) (bs "29.00%") = true.
Proof. split; vm_compute; reflexivity. Qed.
Example ex_C29_custom : zfind 170 builtin_types = None /\ itoa (f_to_int64 (fl (bs "0.5"))) ++ bs "%" = bs "0%".
Proof. split; vm_compute; reflexivity. Qed.
Example ex_C67 : shows new_formatter 2 (GF64 (fl (bs "2.675"))) (bs "2.67") = true /\
  shows new_formatter 2 (GF64 (fl (bs "-0.001"))) (bs "-0.00") = true.
Proof. split; vm_compute; reflexivity. Qed.
Example ex_C19 : fx_cell_type new_formatter 3 = Some IntegerCell /\ snd (parse_int 64 (bs "n/a")) = PSyntax /\
  snd (parse_float (bs "n/a")) = PSyntax.
Proof. repeat split; vm_compute; reflexivity. Qed.

Print Assumptions text_shown.
Print Assumptions C19_text_lost_refuted.
Print Assumptions C19_date_text_refuted.
Print Assumptions C19_empty_text_refuted.
Print Assumptions C23_grouping_unique.
Print Assumptions C23_only_commas_added.
Print Assumptions C23_commas.
Print Assumptions C23_builtin_integers.
Print Assumptions C23_builtin_floats.
Print Assumptions C24_parens.
Print Assumptions C24_builtin_integers.
Print Assumptions C24_builtin_floats.
Print Assumptions C24_empty_text_refuted.
Print Assumptions C25_general.
Print Assumptions C26_sections.
Print Assumptions C27_builtin_fixed.
Print Assumptions C27_rejected_unchanged.
Print Assumptions C27_first_wins.
Print Assumptions C27_general_replaces_refuted.
Print Assumptions C28_unknown_panics_refuted.
Print Assumptions C28_cell_panics_refuted.
Print Assumptions C28_known_ids_render.
Print Assumptions percent_decimals.
Print Assumptions percent_truncates.
Print Assumptions C29_custom_percent_refuted.
Print Assumptions C67_two_decimals.

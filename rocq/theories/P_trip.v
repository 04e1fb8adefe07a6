(** * P_trip: property C112 — the values of a sheet through grate2tsv and back *)
From Coq Require Import Permutation Reals Lra Psatz.
From Flocq Require Import Core IEEE754.BinarySingleNaN.
From Verif Require Import P_formats M_tsv P_tsv GoBase GoFloat M_grate M_value M_fmt M_formats M_cell M_sheet M_simple M_biff M_xls M_xlsx M_open M_cmd S_cell S_sheet S_grid S_formats S_display S_text L_base L_float L_round S_simple S_grate S_cfb S_open P_simple P_open P_refuse P_cmd P_again S_numtext S_general P_numtext L_short L_ffun P_general S_trip.
Open Scope Z_scope.
Local Opaque f_of_dec Z.pow.

(** ** a six-digit text of a float64 is in range *)
Definition maxf : Z := (2 ^ 53 - 1) * 2 ^ 971.
Lemma maxf_R : IZR maxf = (bpow radix2 1024 - bpow radix2 971)%R.
Proof. unfold maxf. change (bpow radix2 1024) with (IZR (2 ^ 1024)). change (bpow radix2 971) with (IZR (2 ^ 971)). rewrite <- minus_IZR. f_equal. Qed.
Lemma finite_max : forall v : f64, f_is_finite v = true -> (Rabs (B2R v) <= IZR maxf)%R.
Proof. intros v F. rewrite maxf_R. apply (abs_B2R_le_emax_minus_prec 53 1024). reflexivity. Qed.
Lemma not_fits : forall y, ~ fits64 y -> (IZR maxf < Rabs y)%R.
Proof.
  intros y N. apply Rnot_le_lt. intros L. apply N. unfold fits64, near64. apply Rle_lt_trans with (IZR maxf).
  - apply abs_round_le_generic; [apply FLT_exp_valid; reflexivity|typeclasses eauto| |exact L]. apply generic_format_FLT. exists (Float radix2 (2 ^ 53 - 1) 971); [|reflexivity|simpl; lia].
    unfold F2R. cbn [Fnum Fexp]. unfold maxf. rewrite mult_IZR. f_equal.
  - rewrite maxf_R. pose proof (bpow_gt_0 radix2 971). lra.
Qed.
Lemma maxf_lo : 179769 * 10 ^ 303 < maxf /\ 2 * maxf + 10 ^ 303 < 2 * (179770 * 10 ^ 303) /\ 10 ^ 308 < maxf /\ maxf * 100 < 99 * 10 ^ 309.
Proof. repeat split; vm_compute; reflexivity. Qed.
Lemma six_fits : forall v t neg m nf x, f_is_finite v = true -> numeral t neg m nf x ->
  (exists q i, 0 <= i /\ 0 <= q < 10 ^ 6 /\ m = q * 10 ^ i) ->
  (B2R v = 0%R /\ m = 0 \/ exists k, (dec_value false 1 0 k <= dec_value false m nf x < dec_value false 10 0 k)%R /\
       (Rabs (dec_value neg m nf x - B2R v) <= dec_value false 1 0 (k - 5) / 2)%R) -> fits64 (dec_value neg m nf x).
Proof.
  intros v t neg m nf x F N (q & i & Hi & Hq & Em) H. destruct (Rlt_le_dec (Rabs (near64 (dec_value neg m nf x))) (bpow radix2 1024)) as [L|L]; [exact L|exfalso].
  assert (M : (IZR maxf < Rabs (dec_value neg m nf x))%R) by (apply not_fits; unfold fits64; lra). clear L.
  assert (M0 : 0 <= m) by (subst m; apply Z.mul_nonneg_nonneg; [lia|apply Z.pow_nonneg; lia]).
  assert (AB : Rabs (dec_value neg m nf x) = dv m (x - nf)).
  { rewrite dec_value_neg, dec_value_dv, Rabs_mult. assert (0 <= dv m (x - nf))%R by (unfold dv; apply Rmult_le_pos; [apply IZR_le; lia|apply Rlt_le, P10_pos]). rewrite (Rabs_pos_eq (dv _ _)) by assumption. destruct neg; [rewrite Rabs_left by lra|rewrite Rabs_pos_eq by lra]; lra. }
  assert (PM : (0 < IZR maxf)%R) by (apply IZR_lt; reflexivity).
  destruct H as [[_ Z0]|(k & [K1 K2] & K3)].
  { rewrite AB, Z0 in M. unfold dv in M. lra. }
  pose proof (finite_max v F) as FM. pose proof (Rabs_triang_inv (dec_value neg m nf x) (B2R v)) as T. rewrite AB in *. rewrite !dec_value_dv, ?Z.sub_0_r in *.
  assert (U : (dv m (x - nf) <= IZR maxf + dv 1 (k - 5) / 2)%R) by lra. clear T K3 FM.
  destruct maxf_lo as (B1 & B2 & B3 & B4). apply IZR_lt in B3, B4. rewrite <- P10_Z in B3 by lia. rewrite !mult_IZR, <- P10_Z in B4 by lia.
  set (D := dv m (x - nf)) in *.
  assert (E1 : forall j, dv 1 j = P10 j) by (intros; unfold dv; lra). assert (E10 : dv 10 k = (10 * P10 k)%R) by reflexivity. rewrite E1 in K1, U. rewrite E10 in K2.
  assert (P5 : P10 (k - 5) = (P10 k / 100000)%R).
  { assert (P10 k = P10 (k - 5) * P10 5)%R by (rewrite <- P10_add; replace (k - 5 + 5)%Z with k by lia; reflexivity). assert (P10 5 = 100000)%R by (rewrite P10_Z by lia; reflexivity). rewrite H0 in H. lra. }
  assert (Ku : k <= 308).
  { destruct (Z_le_gt_dec k 308) as [|G]; [assumption|exfalso]. pose proof (P10_le 309 k ltac:(lia)). pose proof (P10_pos 309). lra. }
  assert (Kl : 308 <= k).
  { destruct (Z_le_gt_dec 308 k) as [|G]; [assumption|exfalso]. assert (P10 308 = 10 * P10 307)%R by (replace 308 with (1 + 307) by lia; rewrite P10_add; f_equal; rewrite P10_Z by lia; reflexivity). pose proof (P10_le k 307 ltac:(lia)). lra. }
  assert (k = 308) by lia. subst k. clear Ku Kl. change (308 - 5) with 303 in *.
  assert (ED : D = dv q (x - nf + i)) by (unfold D; rewrite Em; apply dv_shift; assumption). set (e := x - nf + i) in *.
  assert (Ee : 303 <= e).
  { destruct (Z_le_gt_dec 303 e) as [|G]; [assumption|exfalso]. pose proof (P10_le e 302 ltac:(lia)). pose proof (P10_pos e).
    assert (P10 308 = 1000000 * P10 302)%R by (replace 308 with (6 + 302) by lia; rewrite P10_add; f_equal; rewrite P10_Z by lia; reflexivity).
    assert (IZR q < 1000000)%R by (apply IZR_lt; apply Hq). assert (0 <= IZR q)%R by (apply IZR_le; lia). unfold dv in ED. nra. }
  assert (EN : D = IZR (q * 10 ^ (e - 303) * 10 ^ 303)).
  { rewrite ED. unfold dv. rewrite P10_Z by lia. rewrite <- mult_IZR. f_equal. rewrite <- Z.mul_assoc, <- Z.pow_add_r by lia. do 2 f_equal. lia. }
  rewrite EN in M, U. set (n := q * 10 ^ (e - 303)) in *. apply lt_IZR in M.
  assert (U' : (IZR (2 * (n * 10 ^ 303)) <= IZR (2 * maxf + 10 ^ 303))%R) by (rewrite plus_IZR, (mult_IZR 2 maxf), (mult_IZR 2 (_ * _)), <- (P10_Z 303) by lia; lra).
  apply le_IZR in U'. clear - M U' B1 B2. assert (P : 0 < 10 ^ 303) by (apply Z.pow_pos_nonneg; lia). set (T := 10 ^ 303) in *. clearbody T. generalize dependent maxf. intros X M U B1 B2. assert (A : 179769 < n) by (apply Z.nle_gt; intros C; pose proof (Z.mul_le_mono_nonneg_r n 179769 T ltac:(lia) C); lia). pose proof (Z.mul_le_mono_nonneg_r 179770 n T ltac:(lia) ltac:(lia)). lia.
Qed.
(** ** texts that are written as they are *)
Definition graphic (t : gostr) : Prop := Forall (fun c => 33 <= c <= 126) t.
Lemma graphic_written : forall fl t, fl_newlines fl = true -> fl_trim fl = true -> graphic t -> M_tsv.cell_value fl t = t /\ cell_written fl t = t.
Proof.
  intros fl t E1 E2 G. unfold graphic in G. assert (K : M_tsv.cell_value fl t = t).
  { unfold M_tsv.cell_value. rewrite E1, E2. rewrite neat_runs.
    - apply trim_trimmed; intros q y Iq E; (assert (A : Forall (fun c => 33 <= c <= 126) q) by (apply Forall_forall; intros c Hc; rewrite Forall_forall in G; apply G; rewrite E; apply in_or_app; auto)); cbn [In space_runes] in Iq; repeat (destruct Iq as [<-|Iq]; [inversion A; lia|]); destruct Iq.
    - split; [|eapply Forall_impl; [|exact G]; cbn beta; intros; lia]. intros a b E. rewrite E in G. apply Forall_app in G. destruct G as [_ G]. inversion G; lia. }
  split; [exact K|]. unfold cell_written. rewrite E2. exact K.
Qed.
Lemma sign_graphic : forall t n, sign_text t n -> graphic t. Proof. intros t n []; repeat constructor; lia. Qed.
Lemma digs_graphic : forall t, Forall dig t -> graphic t. Proof. intros t H. eapply Forall_impl; [|exact H]. unfold dig. intros; lia. Qed.
Lemma int_graphic : forall t z, int_numeral t z -> graphic t.
Proof. intros t z []. apply Forall_app. split; [eapply sign_graphic; eassumption|apply digs_graphic; assumption]. Qed.
Lemma numeral_graphic : forall t neg m nf x, numeral t neg m nf x -> graphic t /\ t <> [].
Proof.
  intros t neg m nf x H. destruct H as [sg neg ip ft fd et x S I Ft NE X]. split.
  - unfold graphic. rewrite !Forall_app. split; [eapply sign_graphic; eassumption|]. split; [apply digs_graphic; assumption|]. split.
    + destruct Ft; [constructor|]. constructor; [lia|apply digs_graphic; assumption].
    + destruct X as [|c t x E T]; [constructor|]. constructor; [lia|eapply int_graphic; eassumption].
  - intros E. apply app_eq_nil in E. destruct E as [_ E]. apply app_eq_nil in E. destruct E as [-> E]. apply app_eq_nil in E. destruct E as [-> _]. inversion Ft; subst. apply NE. reflexivity.
Qed.
Lemma utoa_graphic : forall n, 0 <= n -> graphic (utoa n).
Proof. intros n H. eapply Forall_impl; [|apply (utoa_spec n H)]. unfold digit. intros; lia. Qed.
Lemma itoa_graphic : forall n, graphic (itoa n) /\ itoa n <> [].
Proof.
  intros n. split; [|apply itoa_ne]. unfold itoa. destruct (Z.ltb_spec n 0); [constructor; [lia|]|]; apply utoa_graphic; lia.
Qed.
(** ** what the sheet shows, and what is read from it *)
Lemma shown_back : forall x g d t, suits g d -> write_text x (WPut g 0) t ->
  graphic t /\ t <> [] /\ snd (M_simple.scan_one t d) = None /\ back g d (fst (M_simple.scan_one t d)).
Proof.
  intros x g d t S (ty & code & [(M & _)|(_ & v' & t' & (v0 & t0 & H & ST) & _ & _ & AP & _)]).
  { destruct S; destruct M as [M|[M|[M|M]]]; discriminate M. }
  destruct ST as [[C _]|(-> & -> & _)]; [destruct (C eq_refl)|]. destruct S as [k z z0 R|b b0|v z0 F]; inversion H; subst; try (exfalso; lia).
  - specialize (AP ltac:(discriminate)). assert (E : fx_apply x 0 (GInt KInt64 z) = Ok (ident_text (GInt KInt64 z), true)) by reflexivity. rewrite E in AP. injection AP as AP.
    assert (t = itoa z) by (rewrite <- AP; unfold ident_text; cbn [sprint]; destruct (_ <=? _); reflexivity). clear AP. subst t. destruct C09_scan_values as (_ & SI & _). rewrite SI by (change two63 with (2 ^ 63); lia). destruct (itoa_graphic z). repeat split; auto. constructor; assumption.
  - specialize (AP ltac:(discriminate)). assert (E : fx_apply x 0 (GBool b) = Ok (ident_text (GBool b), true)) by reflexivity. rewrite E in AP. injection AP as AP. subst t.
    destruct b; (split; [repeat constructor; vm_compute; discriminate|split; [discriminate|split; [reflexivity|]]]); match goal with |- back _ _ ?d => let d' := eval vm_compute in d in change d with d' end; constructor.
  - specialize (AP ltac:(discriminate)). destruct (C110_general x 0 v (or_introl eq_refl) F) as (p & s & g & P1 & _ & T & G & E). rewrite E in AP. injection AP as AP.
    assert (GN : graphic t /\ t <> []) by (subst t; destruct (_ || _); [destruct P1 as (? & ? & ? & ? & N & _)|destruct (_ <=? _); [destruct T as (? & ? & ? & ? & N & _)|destruct G as (? & ? & ? & ? & N & _)]]; eapply numeral_graphic; exact N).
    split; [apply GN|]. split; [apply GN|]. clear GN. rewrite AP in E. clear AP P1 T G p s g.
    destruct (C110_general_back x 0 v t z0 (or_introl eq_refl) F E) as [->|((p & P1 & P2 & P3) & L & T)]; [split; [reflexivity|constructor; assumption]|].
    assert (T' := T). destruct T as (neg & m & nf & y & N & Y & Q & O). pose proof (six_fits v t neg m nf y F N Q O) as FT. destruct (C109_scan_float t neg m nf y z0 N (or_introl Y)) as (a & NA & A1 & _). rewrite (A1 FT). split; [reflexivity|]. cbn [fst]. apply back_six with p; auto. exists t, neg, m, nf, y. split; [exact T'|]. split; [exact N|]. split; [exact NA|]. apply (proj1 (proj2 NA) FT).
Qed.
Lemma kept_at : forall fl rows r row, nth_error rows r = Some row -> keep_row fl row = true ->
  nth_error (kept fl rows) (List.length (filter (keep_row fl) (firstn r rows))) = Some (map (cell_written fl) row).
Proof.
  intros fl rows. unfold kept. induction rows as [|a rows IH]; intros [|r] row H K; try discriminate; cbn [nth_error firstn filter] in *.
  - injection H as ->. rewrite K. reflexivity.
  - destruct (keep_row fl a); [cbn [List.length map nth_error]|]; apply IH; assumption.
Qed.
Lemma scan_strings : forall row ds c t, zlen row = zlen ds -> nth_error row c = Some t ->
  (forall i, i <> c -> (i < List.length ds)%nat -> exists s, nth_error ds i = Some (DStr s)) ->
  (forall d, nth_error ds c = Some d -> snd (M_simple.scan_one t d) = None) ->
  forall tb, sf_strings tb = Ok row -> exists ds', sf_scan tb ds = Ok (ds', None) /\ List.length ds' = List.length ds /\
    (forall i s, i <> c -> nth_error row i = Some s -> nth_error ds' i = Some (DStr s)) /\
    (forall d, nth_error ds c = Some d -> nth_error ds' c = Some (fst (M_simple.scan_one t d))).
Proof.
  intros row ds c t L Ht HS HC tb SS. destruct (C09_scan_prefix tb row ds SS L) as (ds' & e & n & E & Hn & P & Q).
  assert (LL : List.length row = List.length ds) by (unfold zlen in L; lia).
  assert (ND : forall i v d, nth_error row i = Some v -> nth_error ds i = Some d -> snd (M_simple.scan_one v d) = None).
  { intros i v d A B. destruct (Nat.eq_dec i c) as [->|NE]; [rewrite Ht in A; injection A as <-; exact (HC d B)|].
    destruct (HS i NE) as (s & S); [apply nth_error_Some; congruence|]. rewrite S in B. injection B as <-. reflexivity. }
  destruct e as [er|]; [destruct Q as (v & d & A & B & C & _); rewrite (ND n v d A B) in C; discriminate|]. destruct Q as [-> Q].
  exists ds'. split; [exact E|]. split; [exact Q|]. split.
  - intros i s NE A. assert (I : (i < List.length ds)%nat) by (rewrite <- LL; apply nth_error_Some; congruence). destruct (HS i NE I) as (s0 & S). apply (proj2 (P i s _ I A S)).
  - intros d B. apply (proj2 (P c t d ltac:(apply nth_error_Some; congruence) Ht B)).
Qed.

(** ** C112 *)
(** What was written at row r and column c of a table of texts ts, cols cells wide, is in the text
    file t as follows.  It is in row k, where k counts the rows above r that are written (those with
    a cell that is not blank), and in column c.  After k + 1 calls of Next, Scan with a wanted
    destination at c and strings elsewhere succeeds and gives the value, and the texts of
    the other cells as they are written. *)
Definition read_at (fl : flags) (ts : list (list gostr)) (cols r c : Z) (wants : dest -> Prop) (gets : dest -> dest -> Prop) (t : simple_file) : Prop :=
  let k := List.length (filter (keep_row fl) (firstn (Z.to_nat r) ts)) in
  snd (nexts (S k) t) = true /\
  forall ds d, zlen ds = cols ->
    (forall i, i <> Z.to_nat c -> (i < List.length ds)%nat -> exists s, nth_error ds i = Some (DStr s)) ->
    nth_error ds (Z.to_nat c) = Some d -> wants d ->
    exists ds' d', sf_scan (fst (nexts (S k) t)) ds = Ok (ds', None) /\ List.length ds' = List.length ds /\
      nth_error ds' (Z.to_nat c) = Some d' /\ gets d d' /\
      forall i s, i <> Z.to_nat c -> at2 ts (Z.to_nat r) i = Some s -> nth_error ds' i = Some (DStr (cell_written fl s)).
Definition value_at (fl : flags) (ts : list (list gostr)) (cols r c : Z) (g : goval) (t : simple_file) : Prop :=
  read_at fl ts cols r c (suits g) (back g) t.
Lemma trip_at : forall fuel sizes sp1 sp2 sp3 unzip order iter rd srt hist fn w x ws rows cols ts fl data nr nc e r c wr wants gets,
  sorts_by_priority srt -> Permutation hist (stock fuel sizes sp1 sp2 sp3 unzip order iter rd) -> any_order iter ->
  normal fl -> text_rows x ws rows cols ts -> fits (kept fl ts) -> write_rows fl ts 0 0 = (data, nr, nc) ->
  os_file w fn = FileData data None -> ~ compound data -> unzip data = inr e ->
  0 <= r -> 0 <= c -> last_write ws r c = Some wr -> (exists d, wants d) ->
  (forall t d, wants d -> write_text x wr t -> graphic t /\ t <> [] /\ snd (M_simple.scan_one t d) = None /\ gets d (fst (M_simple.scan_one t d))) ->
  exists t, fst (open_file (registered srt hist) fn w) = Ok (SrcSimple t) /\
    read_at fl ts (extent (Z.max 1 cols) (map (fun o : gop => snd (fst o)) ws)) r c wants gets t.
Proof.
  intros fuel sizes sp1 sp2 sp3 unzip order iter rd srt hist fn w x ws rows cols ts fl data nr nc e r c wr wants gets HS HP HI HN HT HF HW HO NC HU Hr Hc LW (d0 & SU0) SB.
  destruct (C100_again fuel sizes sp1 sp2 sp3 unzip order iter rd srt hist fn w ts fl data nr nc e HS HP HI HN (C100_rectangles _ _ _ _ _ HT) HF HW HO NC HU) as (EO & _).
  eexists. split; [exact EO|]. unfold read_at. set (k := List.length (filter (keep_row fl) (firstn (Z.to_nat r) ts))). cbv zeta. destruct HT as (T1 & T2 & T3). destruct (T2 r c ltac:(congruence)) as (t & A). pose proof (T1 _ _ _ A) as WT. rewrite !Z2Nat.id, LW in WT by assumption.
  assert (A' := A). unfold at2 in A'. destruct (nth_error ts (Z.to_nat r)) as [row|] eqn:ER; [|discriminate].
  destruct (SB t d0 SU0 WT) as (G & NE & _). destruct HN as (N1 & N2 & N3 & N4). destruct (graphic_written fl t N2 N3 G) as [V1 V2].
  assert (KR : keep_row fl row = true).
  { unfold keep_row. apply orb_true_iff. left. apply existsb_exists. exists t. split; [eapply nth_error_In; exact A'|]. rewrite V1. destruct t; [congruence|reflexivity]. }
  pose proof (kept_at fl ts _ row ER KR) as KA. fold k in KA.
  pose proof (C08_cursor fn (kept fl ts) (S k) ltac:(lia)) as CU. destruct (nexts (S k) (mkSimple fn (kept fl ts) (-1))) as [tb more]. destruct CU as [CM CR]. cbn [Nat.sub] in CR. rewrite Nat.sub_0_r in CR. destruct (CR _ KA) as (SS & _). cbn [fst snd]. split.
  { rewrite CM. apply Z.leb_le. assert ((k < List.length (kept fl ts))%nat) by (apply nth_error_Some; congruence). unfold zlen. lia. }
  intros ds d LD HD ND SU. destruct (SB t d SU WT) as (_ & _ & SN & BK).
  assert (LR : zlen row = extent (Z.max 1 cols) (map (fun o : gop => snd (fst o)) ws)).
  { destruct T3 as [(-> & _)|(_ & F)]; [discriminate LW|]. rewrite Forall_forall in F. apply F. eapply nth_error_In. exact ER. }
  destruct (scan_strings (map (cell_written fl) row) ds (Z.to_nat c) t) with (tb := tb) as (ds' & E & LE & O1 & O2); auto.
  - unfold zlen in *. rewrite map_length. lia.
  - rewrite nth_error_map, A'. cbn [option_map]. rewrite V2. reflexivity.
  - intros d1 D1. rewrite ND in D1. injection D1 as <-. exact SN.
  - exists ds', (fst (M_simple.scan_one t d)). split; [exact E|]. split; [exact LE|]. split; [exact (O2 d ND)|]. split; [exact BK|].
    intros i s NI AI. unfold at2 in AI. rewrite ER in AI. apply O1; [exact NI|]. rewrite nth_error_map, AI. reflexivity.
Qed.
(** Every value that a sheet shows under General comes back from the text written for it. *)
Theorem C112_values : forall fuel sizes sp1 sp2 sp3 unzip order iter rd srt hist fn w x ws rows cols ts fl data nr nc e r c g,
  sorts_by_priority srt -> Permutation hist (stock fuel sizes sp1 sp2 sp3 unzip order iter rd) -> any_order iter ->
  normal fl -> text_rows x ws rows cols ts -> fits (kept fl ts) -> write_rows fl ts 0 0 = (data, nr, nc) ->
  os_file w fn = FileData data None -> ~ compound data -> unzip data = inr e ->
  0 <= r -> 0 <= c -> last_write ws r c = Some (WPut g 0) -> (exists d, suits g d) ->
  exists t, fst (open_file (registered srt hist) fn w) = Ok (SrcSimple t) /\
    value_at fl ts (extent (Z.max 1 cols) (map (fun o : gop => snd (fst o)) ws)) r c g t.
Proof.
  intros fuel sizes sp1 sp2 sp3 unzip order iter rd srt hist fn w x ws rows cols ts fl data nr nc e r c g HS HP HI HN HT HF HW HO NC HU Hr Hc LW SU.
  eapply (trip_at fuel sizes sp1 sp2 sp3 unzip order iter rd srt hist fn w x ws rows cols); try eassumption. intros t d Sd Wt. exact (shown_back x g d t Sd Wt).
Qed.
(** ... and so for every sheet of every source that is converted with grate2tsv. *)
Theorem C112_exported : forall fuel sizes sp1 sp2 sp3 unzip order iter rd srt hist openf fn s tables t x ws rows cols fl md5hex r c g,
  sorts_by_priority srt -> Permutation hist (stock fuel sizes sp1 sp2 sp3 unzip order iter rd) -> any_order iter -> normal fl ->
  openf fn = Ok s -> holds_tables s tables -> In t tables -> tb_single t = false -> text_rows x ws rows cols (tb_rows t) -> fits (kept fl (tb_rows t)) ->
  0 <= r -> 0 <= c -> last_write ws r c = Some (WPut g 0) -> (exists d, suits g d) ->
  exists o, In o (fst (process_file md5hex (fun _ => None) fl (fun fn => open_book (openf fn)) fn)) /\ o_path o = out_path md5hex fn (tb_name t) /\
    forall w e, os_file w (o_path o) = FileData (o_data o) None -> ~ compound (o_data o) -> unzip (o_data o) = inr e ->
      exists f, fst (open_file (registered srt hist) (o_path o) w) = Ok (SrcSimple f) /\
        value_at fl (tb_rows t) (extent (Z.max 1 cols) (map (fun o : gop => snd (fst o)) ws)) r c g f.
Proof.
  intros fuel sizes sp1 sp2 sp3 unzip order iter rd srt hist openf fn s tables t x ws rows cols fl md5hex r c g HS HP HI HN EO HT IT ST TR HF Hr Hc LW SU.
  destruct (C90_commands openf fn s tables EO HT) as (_ & W). destruct (W md5hex fl (proj1 HN)) as (rs & E & _). rewrite E. cbn [fst].
  destruct (C66_rows fl (tb_rows t)) as (nc & WR & _). eexists. split; [apply in_flat_map; exists t; split; [exact IT|]; unfold written_table; rewrite ST; left; reflexivity|]. split; [reflexivity|]. cbn [o_path o_data]. intros w e OS NC HU.
  eapply (C112_values fuel sizes sp1 sp2 sp3 unzip order iter rd srt hist _ w x ws rows cols); eassumption.
Qed.
Local Transparent f_of_dec Z.pow.
(** Not every float64 comes back as it was: a third comes back as 0.333333. *)
Definition third : f64 := fl (bs "0.3333333333333333").
Local Opaque third.
Lemma float_shown : forall x v t, write_text x (WPut (GF64 v) 0) t -> t = ident_text (GF64 v).
Proof.
  intros x v t (ty & code & [([M|[M|[M|M]]] & _)|(_ & v' & t' & (v0 & t0 & H & ST) & _ & _ & AP & _)]); try discriminate M.
  destruct ST as [[C _]|(-> & -> & _)]; [destruct (C eq_refl)|]. inversion H; subst. specialize (AP ltac:(discriminate)).
  assert (E : fx_apply x 0 (GF64 v) = Ok (ident_text (GF64 v), true)) by reflexivity. rewrite E in AP. injection AP as AP. auto.
Qed.
Lemma third_text : ident_text (GF64 third) = bs "0.333333".
Proof. vm_compute. reflexivity. Qed.
Definition is_float (v : f64) (d : dest) : bool := match d with DF64 a => feq a v | _ => false end.
Lemma third_scan : forall z0, is_float third (fst (M_simple.scan_one (bs "0.333333") (DF64 z0))) = false /\ is_float third (DF64 third) = true.
Proof. intros z0. split; vm_compute; reflexivity. Qed.
Theorem C112_third_refuted : forall x t z0, write_text x (WPut (GF64 third) 0) t -> t = bs "0.333333" /\ M_simple.scan_one t (DF64 z0) <> (DF64 third, None).
Proof.
  intros x t z0 W. apply float_shown in W. rewrite third_text in W. split; [exact W|]. rewrite W. intros C. destruct (third_scan z0) as [A B]. rewrite C in A. cbn [fst] in A. rewrite B in A. discriminate A.
Qed.

(** ** a sheet that meets the hypotheses *)
Definition ex_writes : list gop := [(0, 0, WPut (GStr (bs "n")) 0); (2, 0, WPut (GInt KInt 42) 0); (2, 1, WPut (GF64 (fl (bs "0.1"))) 0)].
Definition ex_texts : list (list gostr) := [[bs "n"; []]; [[]; []]; [bs "42"; bs "0.1"]; [[]; []]].
Example ex_C112 : text_rows new_formatter ex_writes 1 1 ex_texts /\ normal default_flags /\ fits (kept default_flags ex_texts) /\
  last_write ex_writes 2 1 = Some (WPut (GF64 (fl (bs "0.1"))) 0) /\ suits (GF64 (fl (bs "0.1"))) (DF64 f_zero) /\
  kept default_flags ex_texts = [[bs "n"; []]; [bs "42"; bs "0.1"]] /\ List.length (filter (keep_row default_flags) (firstn 2 ex_texts)) = 1%nat.
Proof.
  split; [|split; [repeat split|split; [split; [vm_compute; repeat constructor; discriminate|vm_compute; discriminate]|split; [reflexivity|split; [constructor; vm_compute; reflexivity|split; reflexivity]]]]].
  assert (V : forall v v' t' s, ~ merge_mark v -> holds v v' t' -> t' <> BlankCell -> fx_apply new_formatter 0 v' = Ok (s, true) -> write_text new_formatter (WPut v 0) s).
  { intros v v' t' s NM H NB A. exists (type_name t'), (bs "General"). right. split; [exact NM|]. exists v', t'. split; [exists v', t'; split; [exact H|right; auto]|]. split; [reflexivity|]. split; [intros C; contradiction|]. split; [intros _; exact A|]. left. exists (bs "General"). split; [left; reflexivity|reflexivity]. }
  split; [|split].
  - intros r c t A. destruct r as [|[|[|[|r]]]]; [..|destruct r; discriminate A]; (destruct c as [|[|c]]; [..|destruct c; discriminate A]); cbn in A; injection A as <-; cbn [last_write ex_writes andb Z.eqb Z.of_nat]; try reflexivity.
    + eapply V; [intros [C|[C|[C|C]]]; discriminate C|constructor; discriminate|discriminate|reflexivity].
    + eapply V; [intros [C|[C|[C|C]]]; discriminate C|constructor; reflexivity|discriminate|reflexivity].
    + eapply V; [intros [C|[C|[C|C]]]; discriminate C|constructor|discriminate|vm_compute; reflexivity].
  - intros r c H. cbn [last_write ex_writes] in H. destruct (Z.eqb_spec 2 r), (Z.eqb_spec 1 c), (Z.eqb_spec 0 c), (Z.eqb_spec 0 r); subst; cbn [andb] in H; try congruence; try lia; eexists; reflexivity.
  - right. split; [reflexivity|]. repeat constructor.
Qed.

Print Assumptions C112_values.
Print Assumptions C112_exported.
Print Assumptions C112_third_refuted.

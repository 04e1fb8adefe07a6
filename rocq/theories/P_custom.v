(** * P_custom: custom format codes (properties C82, C83). *)
From Verif Require Import GoBase GoFloat GoUnicode GoTime L_base M_value M_dates M_numbers M_fmt M_formats M_cell M_sheet
  L_float L_sci L_cell L_sheet S_formats S_cell S_sheet S_dates S_display S_custom L_formats P_formats P_display L_custom L_numcode.
From Coq Require Import Reals Lra Lia ZifyBool ZifyNat.
From Flocq Require Import Core IEEE754.BinarySingleNaN.
Open Scope Z_scope.
Local Opaque f_to_int64 convert_to_date time_format.

(** ** Registering a code *)
Lemma zput_find : forall (A : Type) k (v : A) m, zfind k (zput k v m) = Some v.
Proof. intros. simpl. rewrite Z.eqb_refl. reflexivity. Qed.
Lemma high_id : forall id, 164 <= id -> zfind id go_formatters = None /\ zfind id builtin_types = None /\ (id =? 0) = false.
Proof.
  intros id H. assert (G : forall (A : Type) (l : list (Z * A)), forallb (fun p => fst p <? 164) l = true -> zfind id l = None).
  { induction l as [|[k a] l IH]; intros Hl; [reflexivity|]. simpl in Hl. apply andb_true_iff in Hl as [H1 H2].
    cbn [zfind]. simpl in H1. destruct (Z.eqb_spec id k); [lia|auto]. }
  split; [|split; [|lia]]; apply G; vm_compute; reflexivity.
Qed.
Lemma added : forall x id code ff ct, free_id x id -> to_lower code <> bs "general" -> make_formatter code = (ff, ct) ->
  let x' := fst (fx_add x id code) in
  snd (fx_add x id code) = None /\ fx_1904 x' = fx_1904 x /\ fx_cell_type x' id = Some ct /\
  forall v, fx_apply x' id v = (s <- ff_eval (fx_1904 x) ff v ;; Ok (s, true)).
Proof.
  intros x id code ff ct [Hid Hn] HG HM x'. destruct (high_id id ltac:(lia)) as (G1 & G2 & G3).
  unfold x'. unfold fx_add. destruct (str_eqb (to_lower code) (bs "general")) eqn:E; [apply str_eqb_eq in E; contradiction|].
  rewrite G1, Hn, HM. cbn [fst snd fx_1904]. split; [reflexivity|]. split; [reflexivity|]. split.
  - unfold fx_cell_type. cbn [fx_types]. rewrite G2, zput_find. reflexivity.
  - intros v. unfold fx_apply. cbn [fx_codes fx_1904]. rewrite G1, zput_find. reflexivity.
Qed.

(** ** Dates *)
Lemma custom_date : forall x id text lay val, free_id x id -> to_lower text <> bs "general" ->
  make_formatter text = (FTime lay, DateCell) -> serial val ->
  snd (fx_add x id text) = None /\
  let x' := fst (fx_add x id text) in let t := convert_to_date (fx_1904 x) val in
  shown x' id val (moment_at t) (time_format lay t) /\ moment_of (fx_1904 x) (B2R val) (moment_at t) /\ 1900 <= t_year t.
Proof.
  intros x id text lay val HI HG HM [F HR]. destruct (added x id text _ _ HI HG HM) as (A1 & A2 & A3 & A4).
  split; [exact A1|]. intros x' t. destruct (serial_moment (fx_1904 x) val F HR) as [SM SY]. fold t in SM, SY.
  destruct (high_id id (proj1 (proj1 HI))) as (_ & _ & N0). split; [|split; auto].
  exists [GTime t; GCType DateCell; GInt KUint16 id]. split; [|split; [|split]].
  - unfold make_put_cell. fold x' in A3, A2. rewrite A3, N0. unfold new_cell_with_type. simpl. rewrite A2. fold t. unfold set_format_number.
    simpl. rewrite ?N0. reflexivity.
  - unfold cell_string. simpl. unfold x'. rewrite A4. reflexivity.
  - fold x' in A2. rewrite A2. exact SM.
  - unfold x'. rewrite A4. reflexivity.
Qed.

Lemma seen_no_DHour : forall b code, ~ In DHour (flat_map (item_shows b) code).
Proof.
  intros b code H. apply in_flat_map in H as (i & _ & H). destruct i as [f|c|c|u|]; [destruct f, b|..]; cbv in H;
  repeat (destruct H as [H|H]; [discriminate|]); exact H.
Qed.

Lemma custom_seen : forall x id code val, free_id x id -> date_code code -> serial val ->
  snd (fx_add x id (code_text code)) = None /\
  exists t s, let p := moment_at t in shown (fst (fx_add x id (code_text code))) id val p s /\ moment_of (fx_1904 x) (B2R val) p /\
    code_shows p (flat_map (item_shows (has_ampm code)) code) s.
Proof.
  intros x id code val HI HD HS. destruct (date_code_formatter code HD) as [G M].
  destruct (custom_date x id _ _ val HI G M HS) as (A & B & C & Y). split; [exact A|].
  do 2 eexists. split; [exact B|]. split; [exact C|]. apply layout_shows; auto; [apply seen_no_DHour|].
  destruct HD as (HF & _ & HA & _). exact (chunks_code (has_ampm code) code HF HA).
Qed.

Lemma has_ampm_in : forall code, has_ampm code = true <-> In AmPm code.
Proof.
  intros code. unfold has_ampm. rewrite existsb_exists. split.
  - intros (i & Hi & E). destruct i; try discriminate. auto.
  - intros H. exists AmPm. split; auto.
Qed.

(** C83.  A date serial put with a custom date code is shown as the code says. *)
Theorem C83_layout : forall x id code val, reach_fx x -> free_id x id -> date_code code ->
  ~ In AmPm code -> ~ In (Fld H1) code -> serial val ->
  snd (fx_add x id (code_text code)) = None /\
  exists p t, shown (fst (fx_add x id (code_text code))) id val p t /\ moment_of (fx_1904 x) (B2R val) p /\
    code_shows p (map (item_means false) code) t.
Proof.
  intros x id code val _ HI HD NA NH HS. destruct (custom_seen x id code val HI HD HS) as (A & t & s & B & C & E).
  split; [exact A|]. exists (moment_at t), s. split; [exact B|]. split; [exact C|].
  replace (has_ampm code) with false in E.
  2: { symmetry. apply not_true_is_false. rewrite has_ampm_in. auto. }
  replace (map (item_means false) code) with (flat_map (item_shows false) code); [exact E|].
  clear - NA NH. induction code as [|i code IH]; [reflexivity|]. simpl.
  rewrite IH; [|intros Q; apply NA; right; auto|intros Q; apply NH; right; auto].
  destruct i as [f|c|c|u|]; try reflexivity; [destruct f; try reflexivity; exfalso; apply NH|exfalso; apply NA]; left; auto.
Qed.

(** hours asked for without a leading zero get one *)
Theorem C83_hours_refuted : forall x id code val, reach_fx x -> free_id x id -> date_code code ->
  ~ In AmPm code -> In (Fld H1) code -> serial val ->
  exists p t, shown (fst (fx_add x id (code_text code))) id val p t /\ moment_of (fx_1904 x) (B2R val) p /\
    (code_shows p (map (item_means false) code) t <-> 10 <= mo_hour p).
Proof.
  intros x id code val _ HI HD NA NH HS. destruct (custom_seen x id code val HI HD HS) as (A & t & s & B & C & E).
  exists (moment_at t), s. split; [exact B|]. split; [exact C|].
  replace (has_ampm code) with false in E.
  2: { symmetry. apply not_true_is_false. rewrite has_ampm_in. auto. }
  destruct HD as (_ & HO & _). specialize (HO 4%nat).
  apply in_split in NH as (pre & post & ->).
  assert (K : forall l, ~ In AmPm l -> ~ In (Fld H1) l -> flat_map (item_shows false) l = map (item_means false) l).
  { clear. induction l as [|i l IH]; intros NA NH; [reflexivity|]. simpl.
    rewrite IH; [|intros Q; apply NA; right; auto|intros Q; apply NH; right; auto].
    destruct i as [f|c|c|u|]; try reflexivity; [destruct f; try reflexivity; exfalso; apply NH|exfalso; apply NA]; left; auto. }
  assert (Z0 : forall l, In (Fld H1) l -> (1 <= List.length (filter (of_class 4) l))%nat).
  { clear. intros l H. assert (Q : In (Fld H1) (filter (of_class 4) l)) by (apply filter_In; auto).
    destruct (filter (of_class 4) l); [contradiction|simpl; lia]. }
  rewrite filter_app, app_length in HO. cbn [filter of_class fld_class Nat.eqb List.length] in HO.
  rewrite flat_map_app in E. cbn [flat_map] in E. rewrite map_app. cbn [map].
  rewrite !K in E; try solve [intros Q; apply NA; apply in_or_app; auto; right; right; auto];
    try (intros Q; apply Z0 in Q; lia).
  change (item_shows false (Fld H1)) with [DHour2] in E. change (item_means false (Fld H1)) with DHour.
  exact (hour_token t _ _ s E).
Qed.

Lemma item_eq : forall i, {i = AmPm} + {i <> AmPm}.
Proof. intros []; try (right; discriminate). left. reflexivity. Qed.

(** AM/PM shows three characters too many: AM/AM or AM/PM *)
Theorem C83_ampm_refuted : forall x id code val, reach_fx x -> free_id x id -> date_code code ->
  In AmPm code -> serial val ->
  exists p t, shown (fst (fx_add x id (code_text code))) id val p t /\ moment_of (fx_1904 x) (B2R val) p /\
    code_shows p (flat_map (item_shows true) code) t /\ ~ code_shows p (map (item_means true) code) t.
Proof.
  intros x id code val _ HI HD NA HS. destruct (custom_seen x id code val HI HD HS) as (A & t & s & B & C & E).
  exists (moment_at t), s. split; [exact B|]. split; [exact C|].
  replace (has_ampm code) with true in E by (symmetry; apply has_ampm_in; auto). split; [exact E|].
  clear - E NA. intros (l1 & F1 & ->). destruct E as (l2 & F2 & EQ).
  assert (K : forall code l1 l2, Forall2 (tok_shows (moment_at t)) (map (item_means true) code) l1 ->
    Forall2 (tok_shows (moment_at t)) (flat_map (item_shows true) code) l2 ->
    (List.length (concat l2) = List.length (concat l1) + 3 * List.length (filter (fun i => match i with AmPm => true | _ => false end) code))%nat).
  { clear. induction code as [|i code IH]; intros l1 l2 H1 H2.
    - inversion H1; inversion H2; reflexivity.
    - cbn [map] in H1. cbn [flat_map] in H2. inversion H1 as [|? s1 ? l1' S1 H1']; subst.
      apply Forall2_app_inv_l in H2 as (a2 & l2' & G1 & G2 & ->). specialize (IH _ _ H1' G2).
      cbn [filter]. rewrite concat_app. cbn [concat]. rewrite !app_length, IH. destruct (item_eq i) as [->|N].
      + cbn [item_shows] in G1. inversion G1 as [|? u1 ? a3 U1 G3]; subst. inversion G3 as [|? u2 ? a4 U2 G4]; subst. inversion G4; subst.
        cbn [item_means] in S1. rewrite (tok_len _ _ _ _ U2 S1). cbn [tok_shows] in U1. subst u1. cbn [concat List.length].
        rewrite !app_length. simpl. lia.
      + assert (Q : item_shows true i = [item_means true i]) by (destruct i as [f|c|c|u|]; try reflexivity; [destruct f; reflexivity|congruence]).
        rewrite Q in G1. inversion G1 as [|? u1 ? a3 U1 G3]; subst. inversion G3; subst. rewrite (tok_len _ _ _ _ U1 S1).
        cbn [concat]. rewrite app_nil_r. destruct i; try congruence; simpl; lia. }
  specialize (K _ _ _ F1 F2). rewrite EQ in K.
  assert (Q : In AmPm (filter (fun i => match i with AmPm => true | _ => false end) code)) by (apply filter_In; auto).
  destruct (filter _ code); [contradiction|]. simpl in K. lia.
Qed.

(** minutes that are not between hours and seconds are shown as months *)
Lemma two_digits_inj : forall a b, 0 <= a < 100 -> 0 <= b < 100 -> two_digits a = two_digits b -> a = b.
Proof. intros a b Ha Hb E. unfold two_digits in E. injection E as E1 E2. lia. Qed.
Lemma mo_min_range : forall t, 0 <= mo_min (moment_at t) < 60.
Proof. intros t. unfold mo_min, mo_hour. cbn [moment_at mo_ns]. lia. Qed.
Lemma mo_month_range : forall t, 1 <= mo_month (moment_at t) <= 12.
Proof. intros t. cbn [moment_at mo_month]. apply t_month_range. Qed.

Lemma minute_table : forall text meant seen, In (text, meant, seen) minute_codes ->
  to_lower (bs text) <> bs "general" /\ ~ In DHour seen /\
  (exists lay, make_formatter (bs text) = (FTime lay, DateCell) /\ layout_chunks (List.length lay) lay = flat_map tok_chunks seen) /\
  ((exists pre post, meant = pre ++ [DMin2] ++ post /\ seen = pre ++ [DMonth2] ++ post) \/
   (exists pre, meant = pre ++ [DMin2] /\ seen = pre ++ [DMonth; T "m"])).
Proof.
  intros text meant seen H. cbv [minute_codes In] in H.
  repeat (destruct H as [H|H]; [injection H as <- <- <-; split; [vm_compute; discriminate|];
    split; [cbv; intros Q; repeat (destruct Q as [Q|Q]; [discriminate|]); exact Q|];
    split; [eexists; split; [vm_compute; reflexivity|vm_compute; reflexivity]|]|]); [..|destruct H].
  - left. exists [DHour2; T ":"], []. split; reflexivity.
  - left. exists [], [T ":"; DSec2]. split; reflexivity.
  - left. exists [DMonth; T "/"; DDay; T "/"; DYear2; T " "; DHour2; T ":"], []. split; reflexivity.
  - right. exists [DYear4; T "-"; DMonth2; T "-"; DDay2; T " "; DHour2; T ":"]. split; reflexivity.
  - right. exists [DDay2; T "/"; DMonth2; T "/"; DYear4; T " "; DHour2; T ":"]. split; reflexivity.
  - right. exists [DMonth2; T "/"; DDay2; T "/"; DYear4; T " "; DHour2; T ":"]. split; reflexivity.
Qed.

Theorem C83_minutes_refuted : forall x id text meant seen val, reach_fx x -> free_id x id ->
  In (text, meant, seen) minute_codes -> serial val ->
  exists p t, shown (fst (fx_add x id (bs text))) id val p t /\ moment_of (fx_1904 x) (B2R val) p /\
    code_shows p seen t /\ (mo_min p <> mo_month p -> ~ code_shows p meant t).
Proof.
  intros x id text meant seen val _ HI HT HS. destruct (minute_table _ _ _ HT) as (G & ND & (lay & M & L) & K).
  destruct (custom_date x id _ _ val HI G M HS) as (_ & B & C & Y). set (t := convert_to_date (fx_1904 x) val) in *.
  assert (CS := layout_shows lay seen t Y ND L). do 2 eexists. split; [exact B|]. split; [exact C|]. split; [exact CS|].
  intros NE CM. pose proof (mo_min_range t) as R1. pose proof (mo_month_range t) as R2.
  destruct K as [(pre & post & -> & ->)|(pre & -> & ->)].
  - destruct (one_token _ _ _ _ _ _ CM CS) as (s & S1 & S2). cbn [tok_shows] in S1, S2. subst s.
    apply two_digits_inj in S2; lia.
  - destruct CM as (l1 & F1 & E1), CS as (l2 & F2 & E2).
    apply Forall2_app_inv_l in F1 as (a1 & b1 & P1 & Q1 & ->). apply Forall2_app_inv_l in F2 as (a2 & b2 & P2 & Q2 & ->).
    rewrite (code_len _ _ _ _ P1 P2) in E1. rewrite E1 in E2. rewrite !concat_app in E2. apply app_inv_head in E2.
    inversion Q1 as [|? u ? ? U1 W1]; subst. inversion W1; subst. inversion Q2 as [|? v ? ? V1 W2]; subst.
    inversion W2 as [|? w ? ? V2 W3]; subst. inversion W3; subst. unfold T in V2; cbn [tok_shows] in U1, V2. subst u w. cbn [concat] in E2.
    rewrite !app_nil_r in E2. apply (f_equal (fun l => last l 0)) in E2. change (bs "m") with [109] in E2. rewrite last_last in E2.
    unfold two_digits in E2. cbn [last] in E2. lia.
Qed.

(** the full name of the day is shown as its short name, the day of the month and "ay" *)
Theorem C83_weekday_refuted : forall x id text seen val, reach_fx x -> free_id x id ->
  In (text, seen) weekday_codes -> serial val ->
  exists p t, shown (fst (fx_add x id (bs text))) id val p t /\ moment_of (fx_1904 x) (B2R val) p /\
    code_shows p seen t /\ forall d r, In d week_full -> t <> d ++ r.
Proof.
  intros x id text seen val _ HI HT HS.
  assert (K : to_lower (bs text) <> bs "general" /\ ~ In DHour seen /\
    (exists lay, make_formatter (bs text) = (FTime lay, DateCell) /\ layout_chunks (List.length lay) lay = flat_map tok_chunks seen) /\
    exists r, seen = DWeek3 :: DDay :: r).
  { cbv [weekday_codes In] in HT.
    repeat (destruct HT as [H|HT]; [injection H as <- <-; split; [vm_compute; discriminate|];
      split; [cbv; intros Q; repeat (destruct Q as [Q|Q]; [discriminate|]); exact Q|];
      split; [eexists; split; [vm_compute; reflexivity|vm_compute; reflexivity]|eexists; reflexivity]|]). destruct HT. }
  destruct K as (G & ND & (lay & M & L) & r & ->).
  destruct (custom_date x id _ _ val HI G M HS) as (_ & B & C & Y). set (t := convert_to_date (fx_1904 x) val) in *.
  assert (CS := layout_shows lay _ t Y ND L). do 2 eexists. split; [exact B|]. split; [exact C|]. split; [exact CS|].
  intros d s Hd E. rewrite E in CS. destruct CS as (l & F & E2). inversion F as [|? w ? l1 W F1]; subst. inversion F1 as [|? n ? l2 N F2]; subst.
  cbn [tok_shows] in W, N. destruct W as (k & _ & Hw). destruct N as (N1 & N2 & _).
  destruct n as [|n0 n]; [congruence|]. inversion N2 as [|? ? N0 _]; subst. cbn [concat] in E2.
  apply nth_error_In in Hw. apply (f_equal (fun l => nth 3 l 0)) in E2.
  cbv [week_abbr week_full map In] in Hw, Hd. unfold is_dig in N0.
  repeat (destruct Hw as [<-|Hw]; [repeat (destruct Hd as [<-|Hd]; [cbn in E2; lia|]); destruct Hd|]). destruct Hw.
Qed.

(** ** Numbers *)
Definition puts (x : formatter) (id : Z) (v : goval) (t : gostr) : Prop :=
  exists c, make_put_cell x v id = Ok c /\ cell_string x c = Ok t.
Lemma put_float : forall x id v t, (id =? 0) = false -> fx_cell_type x id = Some FloatCell ->
  fx_apply x id (GF64 v) = Ok (t, true) -> puts x id (GF64 v) t.
Proof.
  intros x id v t N0 T1 A. exists [GF64 v; GCType FloatCell; GInt KUint16 id]. split.
  - unfold make_put_cell. rewrite T1, N0. unfold new_cell_with_type. simpl. unfold set_format_number. simpl. rewrite ?N0. reflexivity.
  - unfold cell_string. simpl. rewrite A. reflexivity.
Qed.
Lemma put_int : forall x id z t, (id =? 0) = false -> fx_cell_type x id = Some IntegerCell ->
  fx_apply x id (GInt KInt64 z) = Ok (t, true) -> puts x id (GInt KInt64 z) t.
Proof.
  intros x id z t N0 T1 A. exists [GInt KInt64 z; GCType IntegerCell; GInt KUint16 id]. split.
  - unfold make_put_cell. rewrite T1, N0. unfold new_cell_with_type. simpl. unfold set_format_number. simpl. rewrite ?N0. reflexivity.
  - unfold cell_string. simpl. rewrite A. reflexivity.
Qed.
Lemma put_float_int : forall x id v t, (id =? 0) = false -> fx_cell_type x id = Some IntegerCell ->
  fx_apply x id (GInt KInt64 (f_to_int64 v)) = Ok (t, true) -> puts x id (GF64 v) t.
Proof.
  intros x id v t N0 T1 A. exists [GInt KInt64 (f_to_int64 v); GCType IntegerCell; GInt KUint16 id]. split.
  - unfold make_put_cell. rewrite T1, N0. unfold new_cell_with_type. simpl. unfold set_format_number. simpl. rewrite ?N0. reflexivity.
  - unfold cell_string. simpl. rewrite A. reflexivity.
Qed.

Lemma number_added : forall x id pre group k post, free_id x id -> lits_ok pre -> lits_ok post -> digits_ok k ->
  let code := number_code pre group k post in let x' := fst (fx_add x id code) in
  snd (fx_add x id code) = None /\ fx_cell_type x' id = Some (number_type k) /\ (id =? 0) = false /\
  forall v t, ff_eval (fx_1904 x) (number_ff (has_pct pre || has_pct post) group k) v = Ok t ->
    fx_apply x' id v = Ok (lits_show pre ++ t ++ lits_show post, true).
Proof.
  intros x id pre group k post HI H1 H2 Hk code x'. destruct (number_formatter pre group k post H1 H2 Hk) as (G & ff & M & E).
  destruct (added x id _ _ _ HI G M) as (A1 & A2 & A3 & A4). split; [exact A1|]. split; [exact A3|].
  split; [destruct HI as [HI _]; lia|]. intros v t Ev. unfold x', code. rewrite A4, E, Ev. reflexivity.
Qed.
Lemma no_pct : forall pre post, ~ In LPct pre -> ~ In LPct post -> has_pct pre || has_pct post = false.
Proof.
  intros pre post H1 H2. apply orb_false_iff. split; apply not_true_is_false; rewrite has_pct_in; auto.
Qed.
Lemma some_pct : forall pre post, In LPct pre \/ In LPct post -> has_pct pre || has_pct post = true.
Proof. intros pre post H. apply orb_true_iff. rewrite !has_pct_in. auto. Qed.

(** integers *)
Lemma eval_whole : forall m pct group z, exists d u, nat_numeral (Z.abs z) d /\ grouped group d u /\
  ff_eval m (number_ff pct group Whole) (GInt KInt64 z) = Ok (minus (z <? 0) ++ u).
Proof.
  intros m pct group z. set (mul := if pct then 100 else 1).
  assert (N : nat_numeral (Z.abs z) (utoa (Z.abs z))) by (apply utoa_numeral; lia).
  assert (E : forall m, ff_eval m (FSprintf (mkFmt 0 None VD false) mul) (GInt KInt64 z) = Ok (minus (z <? 0) ++ utoa (Z.abs z) ++ [])).
  { intros m0. cbn [ff_eval]. f_equal. unfold sprintf_text, sprintf_int, int_text. cbn [fm_verb fm_prec fm_wid fm_pct].
    unfold pad_left. replace (Z.to_nat (0 - zlen (itoa z))) with 0%nat by (pose proof (zlen_nonneg _ (itoa z)); lia).
    cbn [repeat]. simpl app at 1. rewrite !app_nil_r. unfold itoa, minus. destruct (Z.ltb_spec z 0).
    - rewrite Z.abs_neq by lia. reflexivity.
    - rewrite Z.abs_eq by lia. reflexivity. }
  destruct group.
  - destruct (C23_commas m (FSprintf (mkFmt 0 None VD false) mul) (GInt KInt64 z) (z <? 0) (utoa (Z.abs z)) []) as (u & Hu & _ & Eu); auto.
    + apply N.
    + apply N.
    + exists (utoa (Z.abs z)), u. split; auto. split; [exact Hu|]. rewrite app_nil_r in Eu. exact Eu.
  - exists (utoa (Z.abs z)), (utoa (Z.abs z)). split; auto. split; [reflexivity|]. specialize (E m). rewrite app_nil_r in E. exact E.
Qed.

(** C82.  An integer under a code such as 0, #,##0 or "$"#,##0 "kg" is shown digit by digit,
    grouped if the code says so, with the text of the code around it. *)
Theorem C82_integers : forall x id pre group post z, reach_fx x -> free_id x id ->
  lits_ok pre -> lits_ok post -> ~ In LPct pre -> ~ In LPct post ->
  let x' := fst (fx_add x id (number_code pre group Whole post)) in
  snd (fx_add x id (number_code pre group Whole post)) = None /\
  exists d u, nat_numeral (Z.abs z) d /\ grouped group d u /\
    puts x' id (GInt KInt64 z) (lits_show pre ++ minus (z <? 0) ++ u ++ lits_show post) /\
    fx_apply x' id (GInt KInt64 z) = Ok (lits_show pre ++ minus (z <? 0) ++ u ++ lits_show post, true).
Proof.
  intros x id pre group post z _ HI H1 H2 N1 N2 x'.
  destruct (number_added x id pre group Whole post HI H1 H2 I) as (A & B & C & E). split; [exact A|].
  destruct (eval_whole (fx_1904 x) (has_pct pre || has_pct post) group z) as (d & u & D1 & D2 & D3).
  exists d, u. split; [exact D1|]. split; [exact D2|]. apply E in D3. rewrite <- app_assoc in D3. split; [|exact D3].
  apply put_int; auto.
Qed.

Lemma trunc_range : forall r, (Rabs r < IZR (2 ^ 62))%R -> - two63 <= Ztrunc r < two63.
Proof.
  intros r H. assert (E : Z.abs (Ztrunc r) < 2 ^ 62).
  { rewrite <- Ztrunc_abs, Ztrunc_floor by apply Rabs_pos. apply lt_IZR. apply Rle_lt_trans with (2 := H). apply Zfloor_lb. }
  unfold two63. lia.
Qed.
(** a number that is not whole is cut, not rounded, under such a code *)
Theorem C82_rounding_refuted : forall x id pre group post v, reach_fx x -> free_id x id ->
  lits_ok pre -> lits_ok post -> ~ In LPct pre -> ~ In LPct post ->
  f_is_finite v = true -> (Rabs (B2R v) < IZR (2 ^ 62))%R ->
  let x' := fst (fx_add x id (number_code pre group Whole post)) in
  exists d u, nat_numeral (Z.abs (Ztrunc (B2R v))) d /\ grouped group d u /\
    puts x' id (GF64 v) (lits_show pre ++ minus (Ztrunc (B2R v) <? 0) ++ u ++ lits_show post).
Proof.
  intros x id pre group post v _ HI H1 H2 N1 N2 F HB x'.
  destruct (number_added x id pre group Whole post HI H1 H2 I) as (A & B & C & E).
  assert (TI : f_to_int64 v = Ztrunc (B2R v)).
  { apply f_to_int64_trunc; auto. apply trunc_range. exact HB. }
  destruct (eval_whole (fx_1904 x) (has_pct pre || has_pct post) group (Ztrunc (B2R v))) as (d & u & D1 & D2 & D3).
  exists d, u. split; [exact D1|]. split; [exact D2|]. apply E in D3. rewrite <- app_assoc in D3.
  apply put_float_int; auto. rewrite TI. exact D3.
Qed.

(** decimals *)
Lemma eval_fixed : forall m (pct : bool) group p v y, 1 <= Z.of_nat p -> y = fmul v (f_of_Z (if pct then 100 else 1)) -> f_is_finite y = true ->
  exists ip fp u, shows_fixed (Z.of_nat p) (B2R y) (Bsign y) (minus (Bsign y) ++ ip ++ [46] ++ fp) /\ Forall is_dig ip /\ grouped group ip u /\
    ff_eval m (number_ff pct group (Fixed p)) (GF64 v) = Ok (minus (Bsign y) ++ u ++ [46] ++ fp).
Proof.
  intros m pct group p v y Hp Ey F. pose proof (format_f_fixed (Z.of_nat p) y Hp F) as S.
  set (fs := mkFmt (Z.of_nat p + 1) (Some (Z.of_nat p)) VF false).
  assert (E : forall m, ff_eval m (FSprintf fs (if pct then 100 else 1)) (GF64 v) = Ok (format_f (Z.of_nat p) y)).
  { intros m0. cbn [ff_eval sprintf_text]. change (wants_int fs) with false. cbv iota. rewrite <- Ey. f_equal.
    unfold sprintf_float, fs. cbn [fm_verb fm_prec fm_wid fm_pct]. rewrite app_nil_r. unfold pad_left.
    pose proof (shows_fixed_len _ _ _ _ S ltac:(lia)). replace (Z.to_nat _) with 0%nat by lia. reflexivity. }
  pose proof S as (ip & fp & Et & Hne & D1 & D2 & _). change (if Bsign y then [45] else []) with (minus (Bsign y)) in Et.
  rewrite Et in S. destruct group.
  - destruct (C23_commas m (FSprintf fs (if pct then 100 else 1)) (GF64 v) (Bsign y) ip ([46] ++ fp)) as (u & Hu & _ & Eu); auto.
    + rewrite E, Et. reflexivity.
    + right. exists 46, fp. split; auto.
    + exists ip, fp, u. split; [exact S|]. split; [exact D1|]. split; [exact Hu|exact Eu].
  - exists ip, fp, ip. split; [exact S|]. split; [exact D1|]. split; [reflexivity|]. unfold number_ff. fold fs. rewrite E, Et. reflexivity.
Qed.

(** C82, decimals: 0.00, #,##0.000 "kg" and the like show the number correctly rounded *)
Theorem C82_decimals : forall x id pre group p post v, reach_fx x -> free_id x id ->
  lits_ok pre -> lits_ok post -> ~ In LPct pre -> ~ In LPct post -> 1 <= Z.of_nat p <= 1000 -> f_is_finite v = true ->
  let code := number_code pre group (Fixed p) post in let x' := fst (fx_add x id code) in
  snd (fx_add x id code) = None /\
  exists ip fp u, shows_fixed (Z.of_nat p) (B2R v) (Bsign v) (minus (Bsign v) ++ ip ++ [46] ++ fp) /\ Forall is_dig ip /\ grouped group ip u /\
    let t := lits_show pre ++ minus (Bsign v) ++ u ++ bs "." ++ fp ++ lits_show post in
    puts x' id (GF64 v) t /\ fx_apply x' id (GF64 v) = Ok (t, true).
Proof.
  intros x id pre group p post v _ HI H1 H2 N1 N2 Hp F code x'. destruct (fmul_one v F) as (E1 & E2 & E3).
  destruct (number_added x id pre group (Fixed p) post HI H1 H2 Hp) as (A & B & C & E). split; [exact A|].
  rewrite (no_pct _ _ N1 N2) in E.
  destruct (eval_fixed (fx_1904 x) false group p v _ ltac:(lia) eq_refl E2) as (ip & fp & u & D1 & D2 & D3 & D4). rewrite E1, E3 in *.
  exists ip, fp, u. split; [exact D1|]. split; [exact D2|]. split; [exact D3|]. apply E in D4. rewrite <- !app_assoc in D4.
  split; [|exact D4]. apply put_float; auto.
Qed.

(** C82, percentages with decimals *)
Theorem C82_percent : forall x id pre group p post v, reach_fx x -> free_id x id ->
  lits_ok pre -> lits_ok post -> In LPct pre \/ In LPct post -> 1 <= Z.of_nat p <= 1000 ->
  f_is_finite v = true -> (Rabs (B2R v) <= bpow radix2 1000)%R ->
  let code := number_code pre group (Fixed p) post in let x' := fst (fx_add x id code) in
  snd (fx_add x id code) = None /\
  exists ip fp u, shows_fixed (Z.of_nat p) (RN (B2R v * 100)) (Bsign v) (minus (Bsign v) ++ ip ++ [46] ++ fp) /\ Forall is_dig ip /\ grouped group ip u /\
    let t := lits_show pre ++ minus (Bsign v) ++ u ++ bs "." ++ fp ++ lits_show post in
    puts x' id (GF64 v) t /\ fx_apply x' id (GF64 v) = Ok (t, true).
Proof.
  intros x id pre group p post v _ HI H1 H2 N1 Hp F HB code x'. destruct (fmul_100 v F HB) as (E1 & E2 & E3).
  destruct (number_added x id pre group (Fixed p) post HI H1 H2 Hp) as (A & B & C & E). split; [exact A|].
  rewrite (some_pct _ _ N1) in E.
  destruct (eval_fixed (fx_1904 x) true group p v _ ltac:(lia) eq_refl E2) as (ip & fp & u & D1 & D2 & D3 & D4). rewrite E1, E3 in *.
  exists ip, fp, u. split; [exact D1|]. split; [exact D2|]. split; [exact D3|]. apply E in D4. rewrite <- !app_assoc in D4.
  split; [|exact D4]. apply put_float; auto.
Qed.

(** C82, scientific notation *)
Lemma eval_sci : forall m w p v, 1 <= p -> w <= p + 6 -> f_is_finite v = true ->
  exists t k, shows_sci p (B2R v) (Bsign v) k t /\ ff_eval m (FSprintf (mkFmt w (Some p) VE false) 1) (GF64 v) = Ok t.
Proof.
  intros m w p v Hp Hw F. destruct (fmul_one v F) as (E1 & E2 & E3).
  destruct (format_e_sci p _ Hp E2) as (k & S). rewrite E1, E3 in S.
  exists (format_e 69 p (fmul v (f_of_Z 1))), k. split; auto. cbn [ff_eval sprintf_text].
  change (wants_int (mkFmt w (Some p) VE false)) with false. cbv iota. unfold sprintf_float. cbn [fm_verb fm_prec fm_wid fm_pct].
  rewrite app_nil_r. unfold pad_left. apply sci_len in S; [|lia].
  replace (Z.to_nat (w - zlen (format_e 69 p (fmul v (f_of_Z 1))))) with 0%nat by lia. reflexivity.
Qed.
Theorem C82_scientific : forall x id pre p low minus z post v, reach_fx x -> free_id x id ->
  lits_ok pre -> lits_ok post -> ~ In LPct pre -> ~ In LPct post -> 1 <= Z.of_nat p <= 1000 -> f_is_finite v = true ->
  let code := number_code pre false (Sci p low minus z) post in let x' := fst (fx_add x id code) in
  snd (fx_add x id code) = None /\
  exists t k, shows_sci (Z.of_nat p) (B2R v) (Bsign v) k t /\
    puts x' id (GF64 v) (lits_show pre ++ t ++ lits_show post) /\
    fx_apply x' id (GF64 v) = Ok (lits_show pre ++ t ++ lits_show post, true).
Proof.
  intros x id pre p low minus z post v _ HI H1 H2 N1 N2 Hp F code x'.
  destruct (number_added x id pre false (Sci p low minus z) post HI H1 H2 Hp) as (A & B & C & E). split; [exact A|].
  rewrite (no_pct _ _ N1 N2) in E.
  destruct (eval_sci (fx_1904 x) (Z.of_nat p + 1) (Z.of_nat p) v ltac:(lia) ltac:(lia) F) as (t & k & S & Et).
  exists t, k. split; [exact S|]. apply E in Et. split; [|exact Et]. apply put_float; auto.
Qed.

(** C82 refuted: the exponent part of the code is ignored.  E+00, E-00, e+0 and E+0000 all show a sign and
    at least two digits: 100000 is 1.0E+05 under each of them *)
Theorem C82_exponent_refuted : forall x id pre p low minus z post v, reach_fx x -> free_id x id ->
  lits_ok pre -> lits_ok post -> ~ In LPct pre -> ~ In LPct post -> 1 <= Z.of_nat p <= 1000 -> f_is_finite v = true ->
  fx_apply (fst (fx_add x id (number_code pre false (Sci p low minus z) post))) id (GF64 v) =
  fx_apply (fst (fx_add x id (number_code pre false (Sci p false false 1) post))) id (GF64 v) /\
  exists d e s, fx_apply (fst (fx_add x id (number_code pre false (Sci p low minus z) post))) id (GF64 v) =
    Ok (lits_show pre ++ d ++ [69; s] ++ e ++ lits_show post, true) /\ (s = 43 \/ s = 45) /\ 2 <= zlen e /\ Forall is_dig e.
Proof.
  intros x id pre p low minus z post v HR HI H1 H2 N1 N2 Hp F.
  destruct (number_added x id pre false (Sci p low minus z) post HI H1 H2 Hp) as (_ & _ & _ & E).
  destruct (number_added x id pre false (Sci p false false 1) post HI H1 H2 Hp) as (_ & _ & _ & E').
  rewrite (no_pct _ _ N1 N2) in E, E'.
  destruct (eval_sci (fx_1904 x) (Z.of_nat p + 1) (Z.of_nat p) v ltac:(lia) ltac:(lia) F) as (t & k & S & Et).
  pose proof (E _ _ Et) as A. pose proof (E' _ _ Et) as A'. split; [etransitivity; [exact A|symmetry; exact A']|].
  destruct S as (c & fp & e & -> & _ & _ & _ & De & _ & Le & _).
  exists ((if Bsign v then [45] else []) ++ [c; 46] ++ fp), e, (if k <? 0 then 45 else 43).
  split; [|split; [destruct (k <? 0); auto|split; auto]].
  etransitivity; [exact A|]. rewrite <- !app_assoc. reflexivity.
Qed.
Example ex_C82_exponent : number_code [] false (Sci 1 true true 0) [] = bs "0.0e-0" /\
  fx_apply (fst (fx_add new_formatter 170 (bs "0.0e-0"))) 170 (GF64 (f_of_Z 100000)) = Ok (bs "1.0E+05", true).
Proof. split; vm_compute; reflexivity. Qed.

(** C82, text: @ shows text as it is; a code without digits shows its text for every value *)
Theorem C82_text : forall x id s, reach_fx x -> free_id x id -> s <> [] -> ~ merge_mark (GStr s) ->
  let x' := fst (fx_add x id (bs "@")) in
  snd (fx_add x id (bs "@")) = None /\ puts x' id (GStr s) s /\ fx_apply x' id (GStr s) = Ok (s, true).
Proof.
  intros x id s _ HI Hs Hm x'.
  destruct (added x id (bs "@") FIdent StringCell HI) as (A1 & A2 & A3 & A4); [discriminate|vm_compute; reflexivity|].
  split; [exact A1|]. assert (E : fx_apply x' id (GStr s) = Ok (s, true)) by (unfold x'; rewrite A4; reflexivity). split; [|exact E].
  destruct HI as [HI _]. assert (N0 : (id =? 0) = false) by lia.
  assert (IM : is_merge_mark s = false) by (destruct (is_merge_mark s) eqn:EM; auto; apply is_merge_mark_spec in EM; contradiction).
  exists [GStr s; GCType StringCell; GInt KUint16 id]. split.
  - unfold make_put_cell. rewrite IM. fold x' in A3. rewrite A3, N0. destruct s as [|a s]; [congruence|].
    unfold new_cell_with_type. simpl. unfold set_format_number. simpl. rewrite ?N0. reflexivity.
  - unfold cell_string. simpl. rewrite E. reflexivity.
Qed.

Lemma no_digits_formatter : forall l, lits_ok l -> lits_show l <> bs "@" -> make_formatter (concat (map lit_text l)) = (FStatic (lits_show l), StringCell).
Proof.
  intros l Hl Hat. pose proof Hl as [HF HA]. pose proof (lits_bytes _ HF) as BA. pose proof (clean_lits l Hl) as CA.
  set (A := concat (map lit_text l)) in *.
  assert (HS : Forall (fun c => ~ In c (bs "Ee.,0#?;[*_")) A) by (eapply Forall_impl; [|exact BA]; cbv beta; tauto).
  assert (NB : forall c, In c (bs "Ee.,0#?;[*_") -> ~ In c A) by (intros c Hc Q; rewrite Forall_forall in HS; apply (HS c Q Hc)).
  assert (RB : rm_brackets A = A).
  { unfold rm_brackets. apply rm_delim_id; auto. apply NB. cbv [bs In]; simpl; tauto. }
  unfold make_formatter. rewrite RB. rewrite (containsb_not (bs ";") A 59); [|left; reflexivity|apply NB; cbv [bs In]; simpl; tauto].
  unfold make_section. rewrite RB.
  assert (DL : contains_any (bs "ymdhs") (rm_literals A) = false).
  { unfold rm_literals. unfold A. rewrite <- lits_raw. rewrite rm_pieces; auto.
    - apply contains_any_not. clear - HF. induction l as [|a l IH]; [constructor|]. inversion HF as [|? ? H1 H2]; subst. cbn [map concat]. apply Forall_app. split; auto.
      destruct a as [w|c|u|]; cbn [lp fst snd lit_text lit_ok] in *.
      + destruct H1 as [_ H1]. eapply Forall_impl; [|exact H1]. intros c [Q _] Hc. apply Q. cbv [bs In] in *; simpl in *; tauto.
      + destruct H1 as [[Q _] _]. constructor; [cbv; lia|]. constructor; [|constructor]. intros Hc. apply Q. cbv [bs In] in *; simpl in *; tauto.
      + constructor.
      + constructor; [cbv; lia|constructor].
    - apply Forall_map. eapply Forall_impl; [|exact HF]. apply lp_ok. }
  rewrite DL.
  assert (ND : contains_any (bs ".Ee") A = false).
  { apply contains_any_not. eapply Forall_impl; [|exact HS]. cbv beta. intros c Hc Q. apply Hc. cbv [bs In] in *; simpl in *; tauto. }
  rewrite ND. cbv zeta.
  assert (SS : sur_split A = (A, None)).
  { unfold sur_split. assert (E : take_while (fun c => negb (is_num_mark c)) A = A).
    { rewrite <- (app_nil_r A) at 1. apply take_while_app; [|discriminate]. eapply Forall_impl; [|apply no_marks; exact HS]. cbv beta. intros c ->. reflexivity. }
    rewrite E, skipn_all. reflexivity. }
  rewrite SS, CA. destruct (str_eqb (lits_show l) (bs "@")) eqn:EQ; [apply str_eqb_eq in EQ; contradiction|]. reflexivity.
Qed.
Theorem C82_static : forall x id l v, reach_fx x -> free_id x id -> lits_ok l -> lits_show l <> bs "@" ->
  to_lower (concat (map lit_text l)) <> bs "general" ->
  fx_apply (fst (fx_add x id (concat (map lit_text l)))) id v = Ok (lits_show l, true).
Proof.
  intros x id l v _ HI Hl Hat HG.
  destruct (added x id _ _ _ HI HG (no_digits_formatter l Hl Hat)) as (A1 & A2 & A3 & A4). rewrite A4. reflexivity.
Qed.

(** zeros ask for leading zeros, but blanks are shown, and one place is missing *)
Theorem C82_zero_padding_refuted : forall x id z, reach_fx x -> free_id x id -> 0 <= z < 10 ->
  puts (fst (fx_add x id (bs "000"))) id (GInt KInt64 z) [32; 48 + z] /\
  puts (fst (fx_add x id (bs "00000"))) id (GInt KInt64 z) [32; 32; 32; 48 + z].
Proof.
  intros x id z _ HI Hz. destruct (high_id id (proj1 (proj1 HI))) as (_ & _ & N0).
  assert (U : itoa z = [48 + z]).
  { pose proof (itoa_numeral z) as [[_ N]|[N _]]; [|lia]. eapply nat_numeral_unique; [exact N|].
    split; [discriminate|]. split; [repeat constructor; unfold is_dig; lia|]. split; [unfold value; simpl; lia|].
    intros r E. injection E as _ <-. reflexivity. }
  destruct (added x id (bs "000") (FSprintf (mkFmt 2 None VD false) 1) IntegerCell HI) as (A1 & A2 & A3 & A4); [discriminate|vm_compute; reflexivity|].
  destruct (added x id (bs "00000") (FSprintf (mkFmt 4 None VD false) 1) IntegerCell HI) as (B1 & B2 & B3 & B4); [discriminate|vm_compute; reflexivity|].
  split; apply put_int; auto; [rewrite A4|rewrite B4]; cbn [ff_eval bind sprintf_text]; unfold sprintf_int, int_text;
    cbn [fm_verb fm_prec fm_wid fm_pct]; rewrite U; reflexivity.
Qed.

(** an e in quoted text turns the number into scientific notation *)
Theorem C82_literal_refuted : forall x id v, reach_fx x -> free_id x id -> f_is_finite v = true ->
  exists t k, shows_sci 1 (B2R v) (Bsign v) k t /\
    puts (fst (fx_add x id (bs "0 ""pieces"""))) id (GF64 v) (t ++ bs " pieces").
Proof.
  intros x id v _ HI F. destruct (high_id id (proj1 (proj1 HI))) as (_ & _ & N0).
  destruct (added x id (bs "0 ""pieces""") (FSurround [] (FSprintf (mkFmt 0 (Some 1) VE false) 1) (bs " pieces")) FloatCell HI) as (A1 & A2 & A3 & A4);
    [discriminate|vm_compute; reflexivity|].
  destruct (eval_sci (fx_1904 x) 0 1 v ltac:(lia) ltac:(lia) F) as (t & k & S & Et).
  exists t, k. split; [exact S|]. apply put_float; auto. rewrite A4. cbn [ff_eval] in *. rewrite Et. reflexivity.
Qed.

(** a section for negative numbers shows the minus sign again *)
Theorem C82_negative_section_refuted : forall x id pos pre group p post v, reach_fx x -> free_id x id -> plain_section pos ->
  lits_ok pre -> lits_ok post -> ~ In LPct pre -> ~ In LPct post -> 1 <= Z.of_nat p <= 1000 -> f_is_finite v = true -> (B2R v < 0)%R ->
  let code := pos ++ bs ";" ++ number_code pre group (Fixed p) post in
  exists ip fp u, shows_fixed (Z.of_nat p) (B2R v) true (bs "-" ++ ip ++ [46] ++ fp) /\ grouped group ip u /\
    fx_apply (fst (fx_add x id code)) id (GF64 v) = Ok (lits_show pre ++ bs "-" ++ u ++ bs "." ++ fp ++ lits_show post, true).
Proof.
  intros x id pos pre group p post v Hx HI HP H1 H2 N1 N2 Hp F Hv code.
  destruct (high_id id (proj1 (proj1 HI))) as (G1 & _ & _).
  assert (SV : Bsign v = true).
  { destruct v as [s|s| |s m e Hb]; try discriminate; [simpl in Hv; lra|]. destruct s; [reflexivity|]. exfalso.
    assert (0 < B2R (B754_finite false m e Hb))%R by (apply F2R_gt_0; reflexivity). lra. }
  destruct (C82_decimals x id pre group p post v Hx HI H1 H2 N1 N2 Hp F) as (_ & ip & fp & u & D1 & D2 & D3 & _ & D4). rewrite SV in *.
  exists ip, fp, u. split; [exact D1|]. split; [exact D3|]. change (bs "-") with (minus true). rewrite <- D4.
  assert (PN : plain_section (number_code pre group (Fixed p) post)).
  { split; [|apply number_formatter; auto].
    pose proof H1 as [Fp _]. pose proof H2 as [Fq _]. unfold number_code. apply Forall_app. split; [|apply Forall_app; split].
    - eapply Forall_impl; [|apply lits_bytes; exact Fp]. cbv beta. intros c [Q _]. split; intros ->; apply Q; cbv [bs In]; simpl; tauto.
    - eapply Forall_impl; [|apply digits_bytes]. cbv beta. intros c Q. cbv [digit_set bs In] in Q; simpl in Q. lia.
    - eapply Forall_impl; [|apply lits_bytes; exact Fq]. cbv beta. intros c [Q _]. split; intros ->; apply Q; cbv [bs In]; simpl; tauto. }
  pose proof (C26_sections x id pos (number_code pre group (Fixed p) post) [] (GF64 v)) as SEC.
  change (join (bs ";") [pos; number_code pre group (Fixed p) post]) with code in SEC. rewrite SEC.
  - unfold chosen_section. cbn [value_class].
    replace (sign_class v) with (-1); [reflexivity|]. destruct v as [s|s| |s m e Hb]; try discriminate; [simpl in Hv; lra|].
    simpl in SV. subst s. reflexivity.
  - exact I.
  - intros Q. unfold builtin in Q. rewrite G1 in Q. apply Q. reflexivity.
  - apply HI.
  - auto.
Qed.

(** ** Cases *)
Lemma outside_all : forall set u, forallb (fun c => negb (existsb (Z.eqb c) set) && negb (c =? 10)) u = true ->
  Forall (fun c => ~ In c set /\ c <> 10) u.
Proof.
  intros set u H. rewrite forallb_forall in H. apply Forall_forall. intros c Hc. specialize (H c Hc). apply andb_true_iff in H as [H1 H2].
  split; [|lia]. intros Q. apply negb_true_iff in H1. assert (existsb (Z.eqb c) set = true); [|congruence].
  apply existsb_exists. exists c. split; auto. apply Z.eqb_refl.
Qed.
(** dd/mm/yyyy hh:mm:ss, mmmm d, yyyy and "week of" ddd *)
Example C83_ex_code : let code := [Fld Dd; Sep 47; Fld Mm; Sep 47; Fld Yyyy; Sep 32; Fld Hh; Sep 58; Fld Min2; Sep 58; Fld Ss] in
  code_text code = bs "dd/mm/yyyy hh:mm:ss" /\ date_code code /\ ~ In AmPm code /\ ~ In (Fld H1) code.
Proof.
  intros code. split; [reflexivity|]. split; [|split; cbv; intros Q; repeat (destruct Q as [Q|Q]; [discriminate|]); exact Q].
  split; [|split; [|split; [|split]]].
  - repeat constructor; cbv [item_ok separators bs In]; simpl; tauto.
  - intros k. do 7 (destruct k as [|k]; [simpl; lia|]). simpl. lia.
  - cbv. repeat split; try discriminate; intros [Q _]; discriminate.
  - left. exists [Fld Dd; Sep 47; Fld Mm; Sep 47; Fld Yyyy; Sep 32], Hh, [Sep 58], Min2, [Sep 58], Ss, []. repeat split; repeat constructor.
  - exists Dd. left. reflexivity.
Qed.
Example C83_ex_words : let code := [Quo (bs "on "); Fld Ddd; Sep 44; Sep 32; Fld Mmmm; Sep 32; Fld D1; Esc 44; Sep 32; Fld Yyyy] in
  code_text code = bs """on ""ddd, mmmm d\, yyyy" /\ date_code code /\ ~ In AmPm code /\ ~ In (Fld H1) code.
Proof.
  intros code. split; [reflexivity|]. split; [|split; cbv; intros Q; repeat (destruct Q as [Q|Q]; [discriminate|]); exact Q].
  split; [|split; [|split; [|split]]].
  - constructor; [split; [discriminate|apply (outside_all (bs "ymdhsJMPpZ0123456789-.,""\*_[];@")); vm_compute; reflexivity]|].
    repeat (constructor; [first [exact I|cbv [item_ok separators bs In]; simpl; tauto]|]). constructor.
  - intros k. do 7 (destruct k as [|k]; [simpl; lia|]). simpl. lia.
  - cbv. repeat split; try discriminate; intros [Q _]; discriminate.
  - right. split; [repeat constructor|]. left. repeat constructor.
  - exists Ddd. right. left. reflexivity.
Qed.
Example C83_ex_seen : make_formatter (bs "dd/mm/yyyy hh:mm:ss") = (FTime (bs "02/01/2006 15:04:05"), DateCell).
Proof. vm_compute. reflexivity. Qed.
Example C82_ex_code : lits_ok [LQuo (bs "US"); LTxt (bs "$ ")] /\ lits_ok [LTxt (bs " "); LQuo (bs "mod")] /\
  number_code [LQuo (bs "US"); LTxt (bs "$ ")] true (Fixed 2) [LTxt (bs " "); LQuo (bs "mod")] = bs """US""$ #,##0.00 ""mod""".
Proof.
  assert (T1 : forall w, w <> [] -> forallb (fun c => negb (existsb (Z.eqb c) (bs "ymdhsEe.,0#?%;[""\*_")) && negb (c =? 10)) w = true -> lit_ok (LTxt w)).
  { intros w Hw H. split; [exact Hw|]. apply outside_all. exact H. }
  assert (T2 : forall w, w <> [] -> forallb (fun c => negb (existsb (Z.eqb c) (bs "Ee.,0#?%;[""\*_")) && negb (c =? 10)) w = true -> lit_ok (LQuo w)).
  { intros w Hw H. split; [exact Hw|]. apply outside_all. exact H. }
  split; [|split; [|reflexivity]]; (split; [|exact I]);
    (constructor; [|constructor; [|constructor]]); first [apply T1|apply T2]; try discriminate; vm_compute; reflexivity.
Qed.
Example C82_ex_integers :
  let x := fst (fx_add new_formatter 164 (bs "#,##0 ""kg""")) in
  fx_apply x 164 (GInt KInt64 (-1234567)) = Ok (bs "-1,234,567 kg", true).
Proof. vm_compute. reflexivity. Qed.

Print Assumptions C83_layout.
Print Assumptions C83_hours_refuted.
Print Assumptions C83_ampm_refuted.
Print Assumptions C83_minutes_refuted.
Print Assumptions C83_weekday_refuted.
Print Assumptions C82_integers.
Print Assumptions C82_rounding_refuted.
Print Assumptions C82_decimals.
Print Assumptions C82_percent.
Print Assumptions C82_scientific.
Print Assumptions C82_exponent_refuted.
Print Assumptions C82_text.
Print Assumptions C82_static.
Print Assumptions C82_zero_padding_refuted.
Print Assumptions C82_literal_refuted.
Print Assumptions C82_negative_section_refuted.

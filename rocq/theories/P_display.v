(** * P_display: properties C78 and C79 (what Strings, Types and Formats show). *)
From Verif Require Import GoBase GoFloat GoUnicode GoTime L_base L_float L_numbers M_value M_dates M_numbers M_fmt M_formats M_cell M_sheet
  S_cell S_sheet S_formats S_dates S_display L_sci L_calendar L_dates P_dates L_cell L_sheet L_formats L_ffun P_formats.
From Coq Require Import Reals Lra Lia ZifyBool ZifyNat.
From Flocq Require Import Core IEEE754.BinarySingleNaN.
Local Open Scope Z_scope.
Local Opaque convert_to_date.

(** ** Dates *)
Definition moment_at (t : Z) : moment := mkMoment (t_year t) (t_month t) (t_mday t) (t_ns t).

Definition tok_chunks (k : dtok) : list chunk :=
  match k with
  | DYear4 => [CLongYear] | DYear2 => [CYear]
  | DMonth => [CNumMonth] | DMonth2 => [CZeroMonth] | DMonth3 => [CMonth]
  | DDay => [CDay] | DDay2 => [CZeroDay]
  | DHour => [] | DHour2 => [CHour] | DHour12 => [CHour12]
  | DMin2 => [CZeroMinute] | DSec2 => [CZeroSecond] | DAmPm => [CPM]
  | DMonth4 => [CLongMonth] | DWeek3 => [CWeekDay] | DHour12z => [CZeroHour12] | DMin => [CMinute] | DSec => [CSecond]
  | DTxt s => map CLit s
  end.

Lemma pad0_numeral : forall n, 0 <= n -> nat_numeral n (pad_int 0 n).
Proof.
  intros n H. unfold pad_int. destruct (Z.ltb_spec n 0); [lia|]. rewrite Z.abs_eq by lia.
  pose proof (zlen_nonneg _ (utoa n)). replace (Z.to_nat (0 - zlen (utoa n))) with 0%nat by lia.
  simpl. apply utoa_numeral. auto.
Qed.
Lemma pad2_below : forallb (fun i => str_eqb (pad_int 2 (Z.of_nat i)) (two_digits (Z.of_nat i))) (seq 0 100) = true.
Proof. vm_compute. reflexivity. Qed.
Lemma pad2_two : forall n, 0 <= n < 100 -> pad_int 2 n = two_digits n.
Proof.
  intros n H. pose proof pad2_below as P. rewrite forallb_forall in P.
  specialize (P (Z.to_nat n) ltac:(apply in_seq; lia)). apply str_eqb_eq in P. rewrite !Z2Nat.id in P by lia. auto.
Qed.
Lemma pad4_numeral : forall n, 1000 <= n -> nat_numeral n (pad_int 4 n).
Proof.
  intros n H. unfold pad_int. destruct (Z.ltb_spec n 0); [lia|]. rewrite Z.abs_eq by lia.
  pose proof (utoa_numeral n ltac:(lia)) as U. pose proof U as (U1 & U2 & U3 & U4).
  destruct (nat_numeral_len _ U1 U2 U4) as [E|E].
  - rewrite E in U3. unfold value in U3. simpl in U3. lia.
  - rewrite U3 in E. assert (4 <= zlen (utoa n)).
    { destruct (Z_le_dec 4 (zlen (utoa n))); auto. exfalso.
      assert (10 ^ zlen (utoa n) <= 10 ^ 3) by (apply Z.pow_le_mono_r; lia). change (10 ^ 3) with 1000 in *. lia. }
    replace (Z.to_nat (4 - zlen (utoa n))) with 0%nat by lia. exact U.
Qed.

Lemma t_month_range : forall t, 1 <= t_month t <= 12.
Proof.
  intros t. unfold t_month. pose proof (days_civil (t_day t)) as H.
  destruct (civil_from_days (t_day t)) as [[y m] d]. destruct H as [H _]. unfold valid_date in H. simpl. lia.
Qed.
Lemma t_mday_range : forall t, 1 <= t_mday t <= 31.
Proof.
  intros t. unfold t_mday. pose proof (days_civil (t_day t)) as H.
  destruct (civil_from_days (t_day t)) as [[y m] d]. destruct H as [H _]. unfold valid_date, month_len in H. simpl.
  repeat match goal with H : context [if ?b then _ else _] |- _ => destruct b end; lia.
Qed.
Lemma t_ns_range : forall t, 0 <= t_ns t < 86400000000000.
Proof. intros t. unfold t_ns, ns_per_day. apply Z.mod_pos_bound. lia. Qed.
Lemma hour_at : forall t, t_hour t = mo_hour (moment_at t) /\ 0 <= t_hour t < 24.
Proof. intros t. pose proof (t_ns_range t). unfold mo_hour, t_hour. simpl. lia. Qed.
Lemma min_at : forall t, t_min t = mo_min (moment_at t) /\ 0 <= t_min t < 60.
Proof. intros t. pose proof (t_ns_range t). unfold mo_min, mo_hour, t_min. simpl. lia. Qed.
Lemma sec_at : forall t, t_sec t = mo_sec (moment_at t) /\ 0 <= t_sec t < 60.
Proof. intros t. pose proof (t_ns_range t). unfold mo_sec, t_sec, ns_per_sec. simpl. lia. Qed.

Lemma flat_lits : forall t s, flat_map (render_chunk t) (map CLit s) = s.
Proof. induction s; simpl; auto. rewrite IHs. auto. Qed.

Lemma week_day_at : forall t, 1900 <= t_year t ->
  exists k, week_day (t_year t, t_month t, t_mday t) k /\ (Z.of_nat k + 1) mod 7 = t_wday t.
Proof.
  intros t Hy. pose proof (days_civil (t_day t)) as H.
  assert (E : civil_from_days (t_day t) = (t_year t, t_month t, t_mday t)).
  { unfold t_year, t_month, t_mday. destruct (civil_from_days (t_day t)) as [[y m] d]. reflexivity. }
  rewrite E in H. destruct H as [HV HD]. unfold valid_date in HV.
  assert (L : -25567 <= t_day t).
  { rewrite <- HD. unfold days_from_civil. destruct (t_month t <=? 2) eqn:Q; lia. }
  exists (Nat.modulo (Z.to_nat (t_day t + 25567)) 7). split.
  - exists (Z.to_nat (t_day t + 25567)). split; [|reflexivity].
    rewrite <- E. change (1900, 1, 1) with (civil_from_days (-25567)). rewrite <- civil_iter. f_equal. lia.
  - unfold t_wday. rewrite Nat2Z.inj_mod. rewrite Z2Nat.id by lia. lia.
Qed.
Lemma week_unique : forall d k1 k2, week_day d k1 -> week_day d k2 -> k1 = k2.
Proof.
  intros d k1 k2 (n1 & E1 & ->) (n2 & E2 & ->). change (1900, 1, 1) with (civil_from_days (-25567)) in *.
  rewrite <- civil_iter in E1, E2. rewrite <- E2 in E1.
  pose proof (days_civil (-25567 + Z.of_nat n1)) as A. pose proof (days_civil (-25567 + Z.of_nat n2)) as B. rewrite E1 in A.
  destruct (civil_from_days (-25567 + Z.of_nat n2)) as [[y m] d']. destruct A as [_ A], B as [_ B].
  assert (n1 = n2) as -> by lia. reflexivity.
Qed.

Lemma tok_render : forall t k, 1900 <= t_year t -> k <> DHour ->
  tok_shows (moment_at t) k (flat_map (render_chunk t) (tok_chunks k)).
Proof.
  intros t k Hy Hk. pose proof (t_month_range t) as HM. pose proof (t_mday_range t) as HD.
  pose proof (hour_at t) as (EH & RH). pose proof (min_at t) as (EM & RM). pose proof (sec_at t) as (ES & RS).
  destruct k; try congruence; cbn [tok_chunks flat_map]; rewrite ?app_nil_r; cbn [tok_shows render_chunk];
    cbn [moment_at mo_year mo_month mo_day] in *; rewrite <- ?EH, <- ?EM, <- ?ES.
  - apply pad4_numeral; lia.
  - destruct (Z.ltb_spec (t_year t) 0); [lia|]. apply pad2_two. apply Z.mod_pos_bound. lia.
  - apply pad0_numeral. lia.
  - apply pad2_two. lia.
  - assert (M : t_month t = 1 \/ t_month t = 2 \/ t_month t = 3 \/ t_month t = 4 \/ t_month t = 5 \/ t_month t = 6 \/
      t_month t = 7 \/ t_month t = 8 \/ t_month t = 9 \/ t_month t = 10 \/ t_month t = 11 \/ t_month t = 12) by lia.
    repeat (destruct M as [M|M]; [rewrite M; reflexivity|]). rewrite M. reflexivity.
  - apply pad0_numeral. lia.
  - apply pad2_two. lia.
  - apply pad2_two. lia.
  - unfold mo_hour12. rewrite <- EH. apply pad0_numeral. destruct (Z.eqb_spec (t_hour t mod 12) 0); lia.
  - apply pad2_two. lia.
  - apply pad2_two. lia.
  - assert (M : t_month t = 1 \/ t_month t = 2 \/ t_month t = 3 \/ t_month t = 4 \/ t_month t = 5 \/ t_month t = 6 \/
      t_month t = 7 \/ t_month t = 8 \/ t_month t = 9 \/ t_month t = 10 \/ t_month t = 11 \/ t_month t = 12) by lia.
    repeat (destruct M as [M|M]; [rewrite M; reflexivity|]). rewrite M. reflexivity.
  - destruct (week_day_at t Hy) as (j & J1 & J2). exists j. split; auto.
    assert (J7 : (j < 7)%nat) by (destruct J1 as (n & _ & ->); apply Nat.mod_upper_bound; lia).
    rewrite <- J2. do 7 (destruct j as [|j]; [reflexivity|]). lia.
  - unfold mo_hour12. rewrite <- EH. apply pad2_two. destruct (Z.eqb_spec (t_hour t mod 12) 0); lia.
  - apply pad0_numeral. lia.
  - apply pad0_numeral. lia.
  - destruct (Z.leb_spec 12 (t_hour t)), (Z.ltb_spec (t_hour t) 12); try lia; reflexivity.
  - apply flat_lits.
Qed.

Lemma layout_shows : forall lay toks t, 1900 <= t_year t -> ~ In DHour toks ->
  layout_chunks (List.length lay) lay = flat_map tok_chunks toks ->
  code_shows (moment_at t) toks (time_format lay t).
Proof.
  intros lay toks t Hy Hn E. unfold time_format. rewrite E. clear E.
  exists (map (fun k => flat_map (render_chunk t) (tok_chunks k)) toks). split.
  - clear lay. induction toks as [|k toks IH]; simpl; constructor.
    + apply tok_render; auto. intros ->. apply Hn. left. auto.
    + apply IH. intros I. apply Hn. right. auto.
  - clear Hn. induction toks as [|k toks IH]; simpl; auto. rewrite flat_map_app, IH. auto.
Qed.

(** the moment of a serial *)
Lemma serial_moment : forall (m : bool) (val : f64), f_is_finite val = true -> (61 <= B2R val < 2957004)%R ->
  moment_of m (B2R val) (moment_at (convert_to_date m val)) /\ 1900 <= t_year (convert_to_date m val).
Proof.
  intros m val F [H1 H2].
  assert (HB : (61 <= B2R val <= IZR (2 ^ 40))%R) by (change (2 ^ 40) with 1099511627776; lra).
  pose proof (C30_fractional_serials m val F HB) as HD. pose proof (C30_time_of_day m val F HB) as HT.
  split.
  - exists (Zfloor (B2R val)). split; [split; [apply Zfloor_lb|apply Zfloor_ub]|].
    split; [exact HD|]. split; [apply t_ns_range|exact HT].
  - assert (61 <= Zfloor (B2R val)) by (apply Zfloor_lub; auto).
    set (n := Zfloor (B2R val)) in *.
    set (e := if m then -24107 else -25569).
    assert (DV : date_of (convert_to_date m val) = civil_from_days (e + n)).
    { destruct HD as [[_ HD]|[HD _]]; [|lia]. rewrite <- HD. rewrite epoch_days. fold e.
      rewrite <- civil_iter. f_equal. lia. }
    unfold date_of in DV.
    pose proof (days_civil (e + n)) as HC. rewrite <- DV in HC. destruct HC as [HV HC].
    unfold valid_date in HV. unfold days_from_civil in HC. unfold e in HC.
    assert (1 <= t_mday (convert_to_date m val) <= 31) by apply t_mday_range.
    destruct (t_month (convert_to_date m val) <=? 2) eqn:EM; destruct m; lia.
Qed.

Lemma date_table : forall x id code, In (id, code) (date_codes ++ hour_codes DHour2 ++ words_codes [34]) ->
  exists lay, zfind id go_formatters = Some (FTime lay) /\ fx_cell_type x id = Some DateCell /\ (id =? 0) = false /\
    layout_chunks (List.length lay) lay = flat_map tok_chunks code /\ ~ In DHour code.
Proof.
  intros x id code H. cbv [date_codes hour_codes words_codes app In] in H.
  repeat (destruct H as [H|H]; [injection H as <- <-; eexists; split; [reflexivity|]; split; [reflexivity|]; split; [reflexivity|];
    split; [vm_compute; reflexivity|cbv; intros Q; repeat (destruct Q as [Q|Q]; [discriminate|]); exact Q]|]).
  destruct H.
Qed.

Lemma date_cell : forall x id lay val, zfind id go_formatters = Some (FTime lay) ->
  fx_cell_type x id = Some DateCell -> (id =? 0) = false ->
  let t := convert_to_date (fx_1904 x) val in
  exists c, make_put_cell x (GF64 val) id = Ok c /\ cell_string x c = Ok (time_format lay t) /\
    fx_apply x id (GF64 val) = Ok (time_format lay t, true).
Proof.
  intros x id lay val Z1 T1 N0 t. exists [GTime t; GCType DateCell; GInt KUint16 id]. split; [|split].
  - unfold make_put_cell. rewrite T1, N0. unfold new_cell_with_type. simpl. unfold set_format_number.
    simpl. rewrite ?N0. reflexivity.
  - unfold cell_string. simpl. unfold fx_apply. rewrite Z1. reflexivity.
  - unfold fx_apply. rewrite Z1. reflexivity.
Qed.

(** [shown x id val p t]: the serial val, put with format id, is the moment p and Strings shows t;
    so does Apply *)
Definition shown (x : formatter) (id : Z) (val : f64) (p : moment) (t : gostr) : Prop :=
  exists c, make_put_cell x (GF64 val) id = Ok c /\ cell_string x c = Ok t /\
    moment_of (fx_1904 x) (B2R val) p /\ fx_apply x id (GF64 val) = Ok (t, true).
(** a serial from 1900-03-01 to 9995-12-31 *)
Definition serial (val : f64) : Prop := f_is_finite val = true /\ (61 <= B2R val < 2957004)%R.

(** C79.  A date serial put with one of the built-in date formats is shown as the code of the
    format says, from the calendar day and the time of day of the serial. *)
Lemma dates_shown : forall x id code val,
  In (id, code) (date_codes ++ hour_codes DHour2 ++ words_codes [34]) -> serial val ->
  shown x id val (moment_at (convert_to_date (fx_1904 x) val))
    (match zfind id go_formatters with Some (FTime lay) => time_format lay (convert_to_date (fx_1904 x) val) | _ => [] end) /\
  code_shows (moment_at (convert_to_date (fx_1904 x) val)) code
    (match zfind id go_formatters with Some (FTime lay) => time_format lay (convert_to_date (fx_1904 x) val) | _ => [] end).
Proof.
  intros x id code val Hin [F HR].
  destruct (date_table x id code Hin) as (lay & Z1 & T1 & N0 & L1 & ND).
  destruct (serial_moment (fx_1904 x) val F HR) as [HM HY]. rewrite Z1. split.
  - destruct (date_cell x id lay val Z1 T1 N0) as (c & A & B & C). exists c. auto.
  - apply layout_shows; auto.
Qed.

Theorem C79_dates : forall x id code val, reach_fx x -> In (id, code) date_codes -> serial val ->
  exists p t, shown x id val p t /\ code_shows p code t.
Proof.
  intros x id code val _ Hin HS. do 2 eexists. apply dates_shown; auto. apply in_or_app. auto.
Qed.

(** C79, hours: the formats h:mm, h:mm:ss, m/d/yy h:mm and d/m/yyyy h:mm are shown with a
    leading zero before hours under ten, which their codes do not have *)
Lemma two_not_numeral : forall h, 0 <= h < 10 -> ~ nat_numeral h (two_digits h).
Proof.
  intros h H (_ & _ & _ & N). unfold two_digits in N. rewrite Z.div_small in N by lia.
  specialize (N [48 + h mod 10] eq_refl). discriminate.
Qed.

Ltac inv_code H :=
  let l := fresh "l" in destruct H as (l & H & ->);
  repeat match goal with H : Forall2 _ (_ :: _) _ |- _ => inversion H; subst; clear H end;
  repeat match goal with H : Forall2 _ [] _ |- _ => inversion H; subst; clear H end.

Lemma code_len : forall p code l1 l2, Forall2 (tok_shows p) code l1 -> Forall2 (tok_shows p) code l2 -> l1 = l2.
Proof.
  intros p code l1 l2 H. revert l2. induction H as [|k s code l1 Hk H IH]; intros l2 H2; inversion H2; subst; auto.
  f_equal; [|auto]. destruct k; cbn [tok_shows] in *; try congruence; try (eapply nat_numeral_unique; eassumption).
  destruct Hk as (k1 & W1 & N1). match goal with H : exists _, _ |- _ => destruct H as (k2 & W2 & N2) end.
  rewrite (week_unique _ _ _ W1 W2) in N1. congruence.
Qed.
Lemma code_unique : forall p code s1 s2, code_shows p code s1 -> code_shows p code s2 -> s1 = s2.
Proof. intros p code s1 s2 (l1 & H1 & ->) (l2 & H2 & ->). rewrite (code_len p code l1 l2 H1 H2). auto. Qed.

(** two codes that differ in one token only *)
Lemma one_token : forall p pre post a b t, code_shows p (pre ++ [a] ++ post) t -> code_shows p (pre ++ [b] ++ post) t ->
  exists s, tok_shows p a s /\ tok_shows p b s.
Proof.
  intros p pre post a b t (l1 & H1 & ->) (l2 & H2 & E).
  apply Forall2_app_inv_l in H1 as (x1 & y1 & A1 & B1 & ->). apply Forall2_app_inv_l in H2 as (x2 & y2 & A2 & B2 & ->).
  rewrite (code_len p pre _ _ A1 A2) in E. rewrite !concat_app in E. apply app_inv_head in E.
  inversion B1 as [|? s1 ? m1 T1 M1]; subst. inversion B2 as [|? s2 ? m2 T2 M2]; subst.
  rewrite (code_len p post _ _ M1 M2) in E. simpl in E.
  apply app_inv_tail in E. subst. eauto.
Qed.

Definition hour_pre : list (Z * (list dtok * list dtok)) :=
  [ (20, ([], [D ":"; DMin2])); (75, ([], [D ":"; DMin2]));
    (21, ([], [D ":"; DMin2; D ":"; DSec2])); (76, ([], [D ":"; DMin2; D ":"; DSec2]));
    (22, ([DMonth; D "/"; DDay; D "/"; DYear2; D " "], [D ":"; DMin2]));
    (77, ([DDay; D "/"; DMonth; D "/"; DYear4; D " "], [D ":"; DMin2])) ]%string.
Lemma hour_split : forall h id code, In (id, code) (hour_codes h) ->
  exists pre post, In (id, (pre, post)) hour_pre /\ code = pre ++ [h] ++ post.
Proof.
  intros h id code H. cbv [hour_codes In] in H.
  repeat (destruct H as [H|H]; [injection H as <- <-; do 2 eexists; split; [cbv [hour_pre In]; eauto 10|reflexivity]|]).
  destruct H.
Qed.
Lemma hour_join : forall h id pre post, In (id, (pre, post)) hour_pre -> In (id, pre ++ [h] ++ post) (hour_codes h).
Proof.
  intros h id pre post H. cbv [hour_pre In] in H.
  repeat (destruct H as [H|H]; [injection H as <- <- <-; cbv [hour_codes In app]; eauto 10|]).
  destruct H.
Qed.

Lemma hour_token : forall t pre post s, code_shows (moment_at t) (pre ++ [DHour2] ++ post) s ->
  (code_shows (moment_at t) (pre ++ [DHour] ++ post) s <-> 10 <= mo_hour (moment_at t)).
Proof.
  intros t pre post s B.
  destruct (hour_at t) as [EH RH]. split.
  - intros C. destruct (one_token _ _ _ _ _ _ B C) as (h2 & S1 & S2). cbn [tok_shows] in S1, S2. subst h2.
    destruct (Z_le_dec 10 (mo_hour (moment_at t))); auto. exfalso. eapply two_not_numeral; [|exact S2]. lia.
  - intros H10. destruct B as (l & B1 & B2). exists l. split; auto.
    apply Forall2_app_inv_l in B1 as (x1 & y1 & A1 & B1 & ->). apply Forall2_app; auto.
    inversion B1; subst. constructor; auto. cbn [tok_shows] in *. subst.
    rewrite <- EH in *. rewrite <- pad2_two by lia. unfold pad_int. destruct (Z.ltb_spec (t_hour t) 0); [lia|].
    rewrite Z.abs_eq by lia. pose proof (utoa_numeral (t_hour t) ltac:(lia)) as U. pose proof U as (U1 & U2 & U3 & U4).
    destruct (nat_numeral_len _ U1 U2 U4) as [E|E].
    + rewrite E in U3. unfold value in U3. simpl in U3. lia.
    + rewrite U3 in E. assert (2 <= zlen (utoa (t_hour t))).
      { destruct (Z_le_dec 2 (zlen (utoa (t_hour t)))); auto. exfalso.
        assert (10 ^ zlen (utoa (t_hour t)) <= 10 ^ 1) by (apply Z.pow_le_mono_r; lia). change (10 ^ 1) with 10 in *. lia. }
      replace (Z.to_nat (2 - zlen (utoa (t_hour t)))) with 0%nat by lia. exact U.
Qed.
Theorem C79_hours_refuted : forall x id code val, reach_fx x -> In (id, code) (hour_codes DHour) -> serial val ->
  exists p t, shown x id val p t /\
    (exists code2, In (id, code2) (hour_codes DHour2) /\ code_shows p code2 t) /\
    (code_shows p code t <-> 10 <= mo_hour p).
Proof.
  intros x id code val _ Hin HS. destruct (hour_split _ _ _ Hin) as (pre & post & Hp & ->).
  pose proof (hour_join DHour2 _ _ _ Hp) as Hin2.
  destruct (dates_shown x id (pre ++ [DHour2] ++ post) val) as [A B]; auto.
  { apply in_or_app. right. apply in_or_app. left. auto. }
  do 2 eexists. split; [exact A|]. split; [eexists; split; [exact Hin2|exact B]|].
  exact (hour_token _ _ _ _ B).
Qed.

(** C79, words: the quotes around the words of the Chinese codes are shown *)
Lemma tok_len : forall p k s1 s2, tok_shows p k s1 -> tok_shows p k s2 -> s1 = s2.
Proof.
  intros p k s1 s2 H1 H2. assert (E : [s1] = [s2]) by (apply (code_len p [k]); repeat constructor; auto). congruence.
Qed.

Ltac in_list := repeat first [left; reflexivity | right].
Lemma words_differ : forall id code, In (id, code) (words_codes []) ->
  exists code2, In (id, code2) (words_codes [34]) /\ forall p t, code_shows p code2 t -> ~ code_shows p code t.
Proof.
  intros id code Hin. cbv [words_codes In] in Hin.
  repeat (destruct Hin as [Hin|Hin]; [injection Hin as <- <-;
    eexists; split; [cbv [words_codes In]; in_list|];
    intros p t (l1 & B & E1) (l2 & C & E2);
    repeat match goal with H : Forall2 _ (_ :: _) _ |- _ => inversion H; subst; clear H end;
    repeat match goal with H : Forall2 _ [] _ |- _ => inversion H; subst; clear H end;
    repeat match goal with H1 : tok_shows ?p ?k ?a, H2 : tok_shows ?p ?k ?b |- _ => assert (a = b) by (eapply tok_len; eauto); subst; clear H2 end;
    cbn [concat] in E2; apply (f_equal (@zlen Z)) in E2; rewrite !zlen_app in E2; cbn [tok_shows] in *; subst;
    unfold zlen in E2; cbn in E2; lia|]).
  destruct Hin.
Qed.
Theorem C79_quotes_refuted : forall x id code val, reach_fx x -> In (id, code) (words_codes []) -> serial val ->
  exists p t, shown x id val p t /\
    (exists code2, In (id, code2) (words_codes [34]) /\ code_shows p code2 t) /\ ~ code_shows p code t.
Proof.
  intros x id code val _ Hin HS. destruct (words_differ id code Hin) as (code2 & H2 & N).
  destruct (dates_shown x id code2 val) as [A B]; auto.
  { apply in_or_app. right. apply in_or_app. right. auto. }
  do 2 eexists. split; [exact A|]. split; [eauto|]. apply N. exact B.
Qed.

(** C79, month: formats 36 and 50 (year and month) show the day in the place of the month *)
Theorem C79_month_refuted : forall x id val, reach_fx x -> In id [36; 50] -> serial val ->
  exists p t, shown x id val p t /\
    code_shows p [DYear4; DTxt (bs """年"""); DDay; DTxt (bs """月""")] t.
Proof.
  intros x id val _ Hid [F HR]. destruct (serial_moment (fx_1904 x) val F HR) as [HM HY].
  assert (K : zfind id go_formatters = Some (FTime (bs "2006""年""2""月""")) /\ fx_cell_type x id = Some DateCell /\ (id =? 0) = false).
  { destruct Hid as [<-|[<-|[]]]; repeat split; reflexivity. }
  destruct K as (K1 & K2 & K3). destruct (date_cell x id _ val K1 K2 K3) as (c & A & B & C).
  do 2 eexists. split; [exists c; split; [exact A|]; split; [exact B|]; split; [exact HM|exact C]|].
  apply layout_shows; [lia|cbv; intros Q; repeat (destruct Q as [Q|Q]; [discriminate|]); exact Q|vm_compute; reflexivity].
Qed.

(** C79, elapsed hours: [h]:mm:ss shows the hours of the day, on a 12-hour clock for format 46 and
    a 24-hour clock for 79, never the hours since the epoch *)
Theorem C79_elapsed_refuted : forall x id hour val, reach_fx x -> In (id, hour) [(46, DHour12); (79, DHour2)] -> serial val ->
  exists p t, shown x id val p t /\
    code_shows p [hour; D ":"; DMin2; D ":"; DSec2] t /\
    forall n u rest, (IZR n <= B2R val)%R -> (B2R val < IZR n + 1)%R -> nat_numeral (24 * n + mo_hour p) u -> t <> u ++ rest.
Proof.
  intros x id hour val _ Hid [F HR]. destruct (serial_moment (fx_1904 x) val F HR) as [HM HY].
  assert (K : exists lay, zfind id go_formatters = Some (FTime lay) /\ fx_cell_type x id = Some DateCell /\ (id =? 0) = false /\
    layout_chunks (List.length lay) lay = flat_map tok_chunks [hour; D ":"; DMin2; D ":"; DSec2] /\ (hour = DHour12 \/ hour = DHour2)).
  { destruct Hid as [E|[E|[]]]; injection E as <- <-; eexists; repeat split; auto; vm_compute; reflexivity. }
  destruct K as (lay & K1 & K2 & K3 & K4 & K5). destruct (date_cell x id _ val K1 K2 K3) as (c & A & B & C).
  assert (CS : code_shows (moment_at (convert_to_date (fx_1904 x) val)) [hour; D ":"; DMin2; D ":"; DSec2]
    (time_format lay (convert_to_date (fx_1904 x) val))).
  { apply layout_shows; [lia|intros Q; destruct K5; subst; cbv in Q; repeat (destruct Q as [Q|Q]; [discriminate|]); exact Q|auto]. }
  do 2 eexists. split; [exists c; split; [exact A|]; split; [exact B|]; split; [exact HM|exact C]|].
  split; [exact CS|]. intros n u rest N1 N2 HU E. rewrite E in CS. clear A B C E HM K1 K4.
  set (t := convert_to_date (fx_1904 x) val) in *. destruct (hour_at t) as [EH RH]. rewrite <- EH in HU.
  assert (N61 : 61 <= n).
  { assert (61 < n + 1); [|lia]. apply lt_IZR. rewrite plus_IZR. lra. }
  destruct HU as (U1 & U2 & U3 & U4).
  destruct (nat_numeral_len _ U1 U2 U4) as [Q|Q]; [rewrite Q in U3; unfold value in U3; simpl in U3; lia|].
  rewrite U3 in Q.
  assert (L3 : 3 <= zlen u).
  { destruct (Z_le_dec 3 (zlen u)); auto. exfalso.
    assert (10 ^ zlen u <= 10 ^ 2) by (apply Z.pow_le_mono_r; lia). change (10 ^ 2) with 100 in *. lia. }
  destruct CS as (l & CS & E). inversion CS as [|? h ? l2 T1 CS2]; subst. inversion CS2 as [|? k ? l3 T2 CS3]; subst.
  cbn [tok_shows D] in T2. subst k. cbn [concat] in E.
  assert (LH : exists a b, h = [a] \/ h = [a; b]).
  { destruct K5 as [-> | ->]; cbn [tok_shows] in T1; [|subst h; do 2 eexists; right; reflexivity].
    destruct T1 as (V1 & V2 & V3 & V4). unfold mo_hour12 in V3; rewrite <- EH in V3.
    destruct (nat_numeral_len _ V1 V2 V4) as [->|W]; [exists 48, 0; auto|]. rewrite V3 in W.
    assert (zlen h <= 2).
    { destruct (Z_le_dec (zlen h) 2); auto. exfalso.
      assert (10 ^ 2 <= 10 ^ (zlen h - 1)) by (apply Z.pow_le_mono_r; lia). change (10 ^ 2) with 100 in *.
      destruct (t_hour t mod 12 =? 0); lia. }
    destruct h as [|a [|b [|d h]]]; [congruence|exists a, 0; auto|exists a, b; auto|].
    rewrite !zlen_cons in H. pose proof (zlen_nonneg _ h). lia. }
  destruct u as [|u0 [|u1 [|u2 u]]]; try (rewrite !zlen_cons in L3; rewrite zlen_nil in L3; lia); [rewrite zlen_nil in L3; lia|].
  inversion U2 as [|? ? _ U2']; subst. inversion U2' as [|? ? D1 U2'']; subst. inversion U2'' as [|? ? D2 _]; subst.
  unfold is_dig in D1, D2. destruct LH as (a & b & [-> | ->]); simpl in E; inversion E; subst; lia.
Qed.

(** ** C78: Strings, Types and Formats *)
Lemma type_name_ok : forall t, ctype_string t = type_name t.
Proof. destruct t; reflexivity. Qed.

Lemma zfind_in : forall A (l : list (Z * A)) k, match zfind k l with Some v => In (k, v) l | None => forall v, ~ In (k, v) l end.
Proof.
  induction l as [|[a b] l IH]; simpl; intros k; auto. specialize (IH k).
  destruct (Z.eqb_spec k a) as [->|N]; [left; auto|].
  destruct (zfind k l); [right; auto|]. intros v [E|E]; [congruence|]. apply (IH v E).
Qed.

Lemma views_of : forall x v f c, reach_fx x -> known x f -> 0 <= f < 65536 -> put_cell_spec x v f c ->
  exists text ty code, cell_string x c = Ok text /\
    (t <- cell_type c ;; Ok (ctype_string t)) = Ok ty /\ cell_format c = Ok code /\ cell_views x v f text ty code.
Proof.
  intros x v f c Hx Hk Hf H. pose proof (put_cell_string_ok x v f c Hx Hk H) as [text Et].
  exists text. destruct H as [[Hm ->]|(Hn & v0 & t0 & v' & t' & Hh & -> & Hc)].
  - exists (bs "static"), (bs "General"). split; auto. split; [reflexivity|]. split; [reflexivity|].
    left. split; auto. split; [|auto]. unfold cell_string in Et. simpl in Et.
    destruct Hm as [->|[->|[->| ->]]]; injection Et as <-; reflexivity.
  - assert (FN : format_no ([v'; GCType t'] ++ (if f =? 0 then [] else [GInt KUint16 f])) = Ok f).
    { destruct (Z.eqb_spec f 0); simpl; subst; reflexivity. }
    assert (CT : cell_type ([v'; GCType t'] ++ (if f =? 0 then [] else [GInt KUint16 f])) = Ok t').
    { destruct (f =? 0); reflexivity. }
    assert (CV : cell_value ([v'; GCType t'] ++ (if f =? 0 then [] else [GInt KUint16 f])) = v') by reflexivity.
    exists (type_name t'), (match zfind f builtin_formats with Some c => c | None => itoa f end).
    split; auto. split; [rewrite CT; cbn [bind]; rewrite type_name_ok; auto|].
    split; [unfold cell_format; rewrite FN; reflexivity|].
    assert (NS : t' <> StaticCell).
    { destruct (if f =? 0 then None else fx_cell_type x f) as [ct|].
      - destruct (ctype_eqb t0 ct).
        + destruct Hc as [_ ->]. destruct Hh; discriminate.
        + destruct Hc; discriminate.
      - destruct Hc as [_ ->]. destruct Hh; discriminate. }
    right. split; auto. exists v', t'. split; [|split; auto; split; [|split]].
    + exists v0, t0. split; auto. destruct (Z.eqb_spec f 0) as [E|N]; [right; destruct Hc; subst; auto|].
      destruct (fx_cell_type x f) as [ct|] eqn:EC.
      * destruct (ctype_eqb t0 ct) eqn:Q.
        -- assert (t0 = ct) by (destruct t0, ct; try discriminate; auto). right. destruct Hc; subst. auto.
        -- left. split; auto. exists ct. split; auto. split; auto. intros ->. destruct ct; discriminate.
      * right. destruct Hc; subst; auto.
    + intros ->. unfold cell_string in Et. rewrite CT in Et. cbn [bind] in Et. congruence.
    + intros NB. unfold cell_string in Et. rewrite CT in Et. cbn [bind] in Et.
      assert (E2 : ('(fs, ok) <- fx_apply x f v' ;; Ok (if ok : bool then fs else sprint v')) = Ok text).
      { destruct t'; try congruence; rewrite FN in Et; cbn [bind] in Et; rewrite CV in Et; exact Et. }
      clear Et. unfold fx_apply in *. destruct (zfind f go_formatters).
      * destruct (ff_eval (fx_1904 x) f0 v'); cbn [bind] in *; try discriminate. congruence.
      * destruct (zfind f (fx_codes x)); [|discriminate].
        destruct (ff_eval (fx_1904 x) f0 v'); cbn [bind] in *; try discriminate. congruence.
    + pose proof (zfind_in _ builtin_formats f) as Z. destruct (zfind f builtin_formats) as [cd|].
      * left. eauto.
      * right. split; auto. apply itoa_numeral.
Qed.

(** C78.  In a sheet built by any Put calls with known format ids, Strings, Types and Formats
    deliver rows of the same shape, and at every position they show the last value put there:
    its text under its format, the name of its type, and the code of its format. *)
Theorem C78_views : forall x ops, reach_fx x -> Forall good_put ops ->
  Forall (fun o => match o with OPut _ _ _ f => known x f | OResize _ _ => True end) ops ->
  exists s ts ys fs, run_ops (empty_sheet x) ops = Ok s /\
    delivers strings s ts /\ delivers types s ys /\ delivers formats s fs /\
    forall r c, match at2 ts r c, at2 ys r c, at2 fs r c with
      | Some t, Some y, Some f =>
          match last_put ops (Z.of_nat r) (Z.of_nat c) with
          | Some (v, id) => cell_views x v id t y f
          | None => t = [] /\ y = bs "blank" /\ f = bs "General"
          end
      | None, None, None => last_put ops (Z.of_nat r) (Z.of_nat c) = None
      | _, _, _ => False
      end.
Proof.
  intros x ops Hx HP HK.
  destruct (run_puts_spec x ops (empty_sheet x) Hx (wf_empty x) eq_refl HP) as (s & R & W & F & C & Dm & _ & _ & Cu).
  specialize (Cu eq_refl).
  set (g1 := fun c => match cell_string x c with Ok s => s | _ => [] end).
  set (g2 := fun c => match (t <- cell_type c ;; Ok (ctype_string t)) with Ok s => s | _ => [] end).
  set (g3 := fun c => match cell_format c with Ok s => s | _ => [] end).
  assert (NE : forall r c, content (empty_sheet x) r c = []).
  { intros r c. unfold content, get_cell, empty_sheet. simpl. unfold idx. destruct (0 <=? r); auto. destruct (Z.to_nat r); auto. }
  assert (KN : forall r c v f, last_put ops r c = Some (v, f) -> known x f /\ 0 <= f < 65536).
  { intros r c v f. clear - HK HP. induction ops as [|o l IH]; simpl; intros L; [discriminate|]. inversion HK; subst. inversion HP; subst.
    destruct (last_put l r c) as [[v1 f1]|] eqn:L1; [injection L as -> ->; auto|].
    destruct o as [r1 c1 v1 f1|]; [|discriminate]. destruct ((r1 =? r) && (c1 =? c)); [|discriminate].
    injection L as -> ->.
    match goal with H : good_put _ |- _ => destruct H as (_ & _ & ? & _) end. auto. }
  assert (V : forall r c, match last_put ops r c with
    | Some (v, f) => exists t y fc, cell_string x (content s r c) = Ok t /\
        (t <- cell_type (content s r c) ;; Ok (ctype_string t)) = Ok y /\ cell_format (content s r c) = Ok fc /\ cell_views x v f t y fc
    | None => content s r c = []
    end).
  { intros r c. specialize (C r c). pose proof (KN r c) as K. destruct (last_put ops r c) as [[v f]|].
    - destruct (K v f eq_refl) as [K1 K2]. apply views_of; auto.
    - rewrite C. apply NE. }
  assert (OKs : forall r c, cell_string x (content s r c) = Ok (g1 (content s r c)) /\
     (t <- cell_type (content s r c) ;; Ok (ctype_string t)) = Ok (g2 (content s r c)) /\ cell_format (content s r c) = Ok (g3 (content s r c))).
  { intros r c. specialize (V r c). destruct (last_put ops r c) as [[v f]|].
    - destruct V as (t & y & fc & V1 & V2 & V3 & _). unfold g1, g2, g3. rewrite V1, V2, V3. auto.
    - rewrite V. auto. }
  exists s, (map (map g1) (sh_rows s)), (map (map g2) (sh_rows s)), (map (map g3) (sh_rows s)).
  assert (SK : skipn (Z.to_nat (sh_cur s)) (sh_rows s) = sh_rows s) by (rewrite Cu; reflexivity).
  split; auto. split; [|split; [|split]].
  - eapply (delivers_fx _ (row_map (cell_string x) []) strings x); [|exact F|intros s0 <-; reflexivity].
    rewrite <- SK. apply (delivers_map _ (cell_string x) [] s g1); auto. intros r c _ _. apply OKs.
  - rewrite <- SK. apply (delivers_map _ _ [] s g2); auto. intros r c _ _. apply OKs.
  - rewrite <- SK. apply (delivers_map _ _ [] s g3); auto. intros r c _ _. apply OKs.
  - intros r c.
    assert (A2 : forall (g : list goval -> gostr), at2 (map (map g) (sh_rows s)) r c = option_map g (at2 (sh_rows s) r c)).
    { intros g. unfold at2. rewrite nth_error_map. destruct (nth_error (sh_rows s) r) as [row|]; [|reflexivity]. simpl. apply nth_error_map. }
    rewrite !A2. clear A2. destruct (at2 (sh_rows s) r c) as [cl|] eqn:E; cbn [option_map].
    + assert (Ect : content s (Z.of_nat r) (Z.of_nat c) = cl).
      { unfold at2 in E. destruct (nth_error (sh_rows s) r) as [row|] eqn:Er; [|discriminate].
        unfold content, get_cell. rewrite (idx_ok _ (sh_rows s) (Z.of_nat r) row); [|lia|rewrite Nat2Z.id; auto].
        cbn [bind]. rewrite (idx_ok _ row (Z.of_nat c) cl); [auto|lia|rewrite Nat2Z.id; auto]. }
      specialize (V (Z.of_nat r) (Z.of_nat c)). rewrite Ect in V. destruct (last_put ops _ _) as [[v f]|].
      * destruct V as (t & y & fc & V1 & V2 & V3 & V4). unfold g1, g2, g3. rewrite V1, V2, V3. exact V4.
      * rewrite V. auto.
    + destruct (last_put ops (Z.of_nat r) (Z.of_nat c)) eqn:L; auto. exfalso.
      destruct (Dm (Z.of_nat r) (Z.of_nat c)) as [Dr Dc]; [congruence|].
      destruct W as [(E1 & E2 & E3 & E4)|(A1 & B & C1 & D1 & E0)]; [lia|].
      destruct (idx_in _ (sh_rows s) (Z.of_nat r) ltac:(lia)) as [row Erow]. apply idx_inv in Erow as [_ Erow].
      assert (zlen row = sh_ncols s) by (rewrite Forall_forall in D1; apply D1; eapply nth_error_In; eauto).
      destruct (idx_in _ row (Z.of_nat c) ltac:(lia)) as [cl Ecl]. apply idx_inv in Ecl as [_ Ecl].
      rewrite Nat2Z.id in *. unfold at2 in E. rewrite Erow in E. congruence.
Qed.

(** ** C80: accounting formats *)
Local Opaque f_of_Z.
Lemma f_zero_real : B2R f_zero = 0%R /\ f_is_finite f_zero = true.
Proof. split; reflexivity. Qed.
Lemma of_Z_sign : forall z, - 2 ^ 63 <= z < 2 ^ 63 ->
  feq (f_of_Z z) f_zero = (z =? 0) /\ flt (f_of_Z z) f_zero = (z <? 0).
Proof.
  intros z Hz. destruct (f_of_Z_round z) as [E F].
  { apply Z.le_trans with (2 ^ 63)%Z; [lia|]. apply Z.pow_le_mono_r; lia. }
  destruct f_zero_real as [Z1 Z2].
  assert (RP : 1 <= z -> (1 <= RN (IZR z))%R).
  { intros H. rewrite <- (RN_Z 1) by lia. apply round_le; try apply valid_rnd_N; [apply fexp64_valid|apply IZR_le; lia]. }
  assert (RM : z <= -1 -> (RN (IZR z) <= -1)%R).
  { intros H. rewrite <- (RN_Z (-1)) by lia. apply round_le; try apply valid_rnd_N; [apply fexp64_valid|apply IZR_le; lia]. }
  assert (R0 : z = 0 -> RN (IZR z) = 0%R).
  { intros ->. rewrite RN_Z by lia. reflexivity. }
  split; apply Bool.eq_iff_eq_true.
  - rewrite feq_real by auto. rewrite E, Z1, Z.eqb_eq. split; auto. intros H.
    destruct (Z_lt_le_dec z 0); [specialize (RM ltac:(lia)); lra|]. destruct (Z.eq_dec z 0); auto. specialize (RP ltac:(lia)). lra.
  - rewrite flt_real by auto. rewrite E, Z1, Z.ltb_lt. split; intros H.
    + destruct (Z_lt_le_dec z 0); auto. exfalso. destruct (Z.eq_dec z 0); [rewrite (R0 e) in H; lra|]. specialize (RP ltac:(lia)). lra.
    + specialize (RM ltac:(lia)). lra.
Qed.

Lemma eval_commas_int : forall m z, exists d u, nat_numeral (Z.abs z) d /\ in_thousands d u /\
  ff_eval m (FCommas (FSprintf (sf_d false) 1)) (GInt KInt64 z) = Ok (minus (z <? 0) ++ u).
Proof.
  intros m z. destruct (C23_builtin_integers (mkFormatter m [] []) 3 z) as (d & u & N & T & E); [simpl; auto|].
  exists d, u. split; auto. split; auto. unfold fx_apply in E. simpl zfind in E. cbv iota in E.
  cbn [fx_1904] in E. destruct (ff_eval m (FCommas (FSprintf (sf_d false) 1)) (GInt KInt64 z)); cbn [bind] in E; try discriminate. congruence.
Qed.
Lemma eval_commas_float : forall m v, f_is_finite v = true ->
  exists ip fp u, shows_fixed 2 (B2R v) (Bsign v) (minus (Bsign v) ++ ip ++ [46] ++ fp) /\
    Forall (fun c => 48 <= c <= 57) ip /\ in_thousands ip u /\
  ff_eval m (FCommas (FSprintf (sf_42f false) 1)) (GF64 v) = Ok (minus (Bsign v) ++ u ++ [46] ++ fp).
Proof.
  intros m v F. destruct (C23_builtin_floats (mkFormatter m [] []) 4 v) as (ip & fp & u & N & Dg & T & E); [simpl; auto|auto|].
  exists ip, fp, u. split; auto. split; auto. split; auto. unfold fx_apply in E. simpl zfind in E. cbv iota in E.
  cbn [fx_1904] in E. destruct (ff_eval m (FCommas (FSprintf (sf_42f false) 1)) (GF64 v)); cbn [bind] in E; try discriminate. congruence.
Qed.

(** C80.  The accounting formats show zero as a dash, and numbers that are not negative with
    thousands separators; those with a currency sign put a dollar sign in front. *)
Theorem C80_integers : forall x id z, In (id) [41; 42] -> 0 <= z < 2 ^ 63 ->
  exists d u, nat_numeral z d /\ in_thousands d u /\
    fx_apply x id (GInt KInt64 z) =
      Ok ((if id =? 42 then bs "$" else []) ++ (if z =? 0 then bs "-" else u), true).
Proof.
  intros x id z Hid Hz. destruct (of_Z_sign z) as [Z1 Z2]; [lia|].
  destruct (eval_commas_int (fx_1904 x) z) as (d & u & N & T & E). rewrite Z.abs_eq in N by lia.
  assert (L : (z <? 0) = false) by lia. rewrite L in *. cbn [minus app] in E.
  exists d, u. split; auto. split; auto.
  destruct Hid as [<-|[<-|[]]]; unfold fx_apply; simpl zfind; cbv iota; cbn [ff_eval switch_fmt to_f64 nth].
  - rewrite Z1. destruct (z =? 0); [reflexivity|]. change (ff_eval (fx_1904 x) (FCommas (FSprintf (sf_d false) 1)) (GInt KInt64 z)) with
      (ff_eval (fx_1904 x) (FCommas (FSprintf (sf_d false) 1)) (GInt KInt64 z)). cbn [ff_eval] in E. rewrite E. reflexivity.
  - rewrite Z1, Z2. destruct (z =? 0); [reflexivity|]. cbn [ff_eval] in E. rewrite E. cbn [bind]. rewrite app_nil_r. reflexivity.
Qed.
Theorem C80_floats : forall x id v, In id [43; 44] -> f_is_finite v = true -> (0 < B2R v)%R ->
  exists ip fp u, shows_fixed 2 (B2R v) false (ip ++ [46] ++ fp) /\ in_thousands ip u /\
    fx_apply x id (GF64 v) = Ok ((if id =? 44 then bs "$" else []) ++ u ++ bs "." ++ fp, true).
Proof.
  intros x id v Hid F HP. destruct (eval_commas_float (fx_1904 x) v F) as (ip & fp & u & N & Dg & T & E).
  assert (S : Bsign v = false).
  { destruct v; simpl in *; try lra. destruct s; auto. exfalso. revert HP. apply Rle_not_lt. apply F2R_le_0. simpl. lia. }
  rewrite S in *. cbn [minus app] in N, E.
  assert (Z1 : feq v f_zero = false).
  { destruct (feq v f_zero) eqn:Q; auto. apply feq_real in Q; auto. rewrite (proj1 f_zero_real) in Q. lra. }
  assert (Z2 : flt v f_zero = false).
  { destruct (flt v f_zero) eqn:Q; auto. apply flt_real in Q; auto. rewrite (proj1 f_zero_real) in Q. lra. }
  exists ip, fp, u. split; auto. split; auto.
  destruct Hid as [<-|[<-|[]]]; unfold fx_apply; simpl zfind; cbv iota; cbn [ff_eval switch_fmt to_f64 nth]; rewrite Z1, ?Z2;
    cbn [ff_eval] in E; rewrite E; cbn [bind]; rewrite ?app_nil_r; reflexivity.
Qed.
Theorem C80_zero : forall x v, f_is_finite v = true -> B2R v = 0%R ->
  fx_apply x 43 (GF64 v) = Ok (bs "-", true) /\ fx_apply x 44 (GF64 v) = Ok (bs "$-", true).
Proof.
  intros x v F HP. assert (Z1 : feq v f_zero = true) by (apply feq_real; auto).
  split; unfold fx_apply; simpl zfind; cbv iota; cbn [ff_eval switch_fmt to_f64 nth]; rewrite Z1; reflexivity.
Qed.
(** C80, negative numbers: formats 41 and 43 show a minus sign and no parentheses, formats 42 and
    44 show both *)
Theorem C80_negative_refuted : forall x z, - 2 ^ 63 <= z < 0 ->
  exists d u, nat_numeral (- z) d /\ in_thousands d u /\
    fx_apply x 41 (GInt KInt64 z) = Ok (bs "-" ++ u, true) /\
    fx_apply x 42 (GInt KInt64 z) = Ok (bs "$(-" ++ u ++ bs ")", true).
Proof.
  intros x z Hz. destruct (of_Z_sign z) as [Z1 Z2]; [lia|].
  destruct (eval_commas_int (fx_1904 x) z) as (d & u & N & T & E). rewrite Z.abs_neq in N by lia.
  assert (L : (z <? 0) = true) by lia. assert (L0 : (z =? 0) = false) by lia. rewrite L in *. cbn [minus app] in E.
  exists d, u. split; auto. split; auto.
  split; unfold fx_apply; simpl zfind; cbv iota; cbn [ff_eval switch_fmt to_f64 nth]; rewrite Z1, ?Z2, L0;
    cbn [ff_eval] in E; rewrite E; reflexivity.
Qed.

(** ** C81: scientific notation *)
Lemma sci_len : forall p x s k t, 0 <= p -> shows_sci p x s k t -> p + 6 <= zlen t.
Proof.
  intros p x s k t Hp (c & fp & e & -> & _ & _ & L & _ & _ & Le & _).
  rewrite !zlen_app, !zlen_cons, !zlen_nil. pose proof (zlen_nonneg _ (if s then [45] else [])). lia.
Qed.
(** C81.  Format 11 (0.00E+00) shows a number with three significant digits, correctly rounded. *)
Lemma sci_shown : forall x id w p v, zfind id go_formatters = Some (FSprintf (mkFmt w (Some p) VE false) 1) ->
  1 <= p -> w <= p + 6 -> f_is_finite v = true ->
  exists t k, fx_apply x id (GF64 v) = Ok (t, true) /\ shows_sci p (B2R v) (Bsign v) k t.
Proof.
  intros x id w p v Z1 Hp Hw F. destruct (fmul_one v F) as (E1 & E2 & E3).
  destruct (format_e_sci p _ Hp E2) as (k & S). rewrite E1, E3 in S.
  exists (format_e 69 p (fmul v (f_of_Z 1))), k. split; auto.
  unfold fx_apply. rewrite Z1. cbn [ff_eval sprintf_text].
  change (wants_int (mkFmt w (Some p) VE false)) with false. cbv iota. unfold sprintf_float. cbn [fm_verb fm_prec fm_wid fm_pct].
  rewrite app_nil_r. unfold pad_left. apply sci_len in S; [|lia].
  replace (Z.to_nat (w - zlen (format_e 69 p (fmul v (f_of_Z 1))))) with 0%nat by lia. reflexivity.
Qed.
Theorem C81_scientific : forall x v, f_is_finite v = true ->
  exists t k, fx_apply x 11 (GF64 v) = Ok (t, true) /\ shows_sci 2 (B2R v) (Bsign v) k t.
Proof. intros x v F. eapply sci_shown; eauto; [reflexivity|lia|lia]. Qed.
(** C81, engineering notation: format 48 (##0.0E+0) shows one digit before the point and the
    exponent of the number, which the code wants to be a multiple of three *)
Theorem C81_engineering_refuted : forall x v, f_is_finite v = true ->
  exists t k, fx_apply x 48 (GF64 v) = Ok (t, true) /\ shows_sci 1 (B2R v) (Bsign v) k t /\
    ((10 <= Rabs (B2R v) < 99)%R -> k = 1).
Proof.
  intros x v F. destruct (sci_shown x 48 3 1 v) as (t & k & A & B); auto; [reflexivity|lia|].
  exists t, k. split; auto. split; auto. intros [R1 R2].
  destruct B as (c & fp & e & _ & Dc & Df & Lf & _ & _ & _ & _ & _ & NZ & B & B20).
  assert (X0 : (B2R v <> 0)%R) by (intros X; rewrite X, Rabs_R0 in R1; lra).
  specialize (NZ X0). destruct fp as [|d [|d2 fp]]; [rewrite zlen_nil in Lf; lia| |rewrite !zlen_cons in Lf; pose proof (zlen_nonneg _ fp); lia].
  inversion Df; subst. unfold is_dig in *.
  assert (V : value [c; d] = 10 * (c - 48) + (d - 48)) by (unfold value; simpl; lia). rewrite V in B.
  apply Rabs_le_inv in B.
  assert (VB : (10 <= IZR (10 * (c - 48) + (d - 48)) <= 99)%R) by (split; apply IZR_le; lia).
  destruct (Z.lt_trichotomy k 1) as [K|[K|K]]; auto; exfalso.
  - assert (10 <= powerRZ 10 (1 - k))%R.
    { replace (1 - k) with (1 + Z.of_nat (Z.to_nat (- k))) by lia. rewrite powerRZ_add by lra. rewrite <- pow_powerRZ.
      change (powerRZ 10 1) with (10 * 1)%R. assert (1 <= 10 ^ Z.to_nat (- k))%R by (apply pow_R1_Rle; lra). lra. }
    nra.
  - assert (powerRZ 10 (1 - k) <= / 10)%R.
    { replace (1 - k) with (- (1 + Z.of_nat (Z.to_nat (k - 2)))) by lia. rewrite powerRZ_neg'. apply Rinv_le; [lra|].
      rewrite powerRZ_add by lra. rewrite <- pow_powerRZ.
      change (powerRZ 10 1) with (10 * 1)%R. assert (1 <= 10 ^ Z.to_nat (k - 2))%R by (apply pow_R1_Rle; lra). lra. }
    assert (0 < powerRZ 10 (1 - k))%R by (apply powerRZ_lt; lra).
    assert (0 < Rabs (B2R v) * powerRZ 10 (1 - k) < 99 / 10)%R by (split; nra).
    specialize (B20 ltac:(change (10 ^ 1) with 10; lra)). rewrite V in B20. apply Rabs_le_inv in B20. lra.
Qed.

(** ** Examples: the hypotheses are met *)
(** 44197.5: noon of 2021-01-01 *)
Example ex_C79_serial : serial (fh 88395).
Proof.
  unfold serial, fh. destruct (f_half_of 88395) as [E F]; [lia|]. split; auto. rewrite E. lra.
Qed.
Local Transparent convert_to_date f_of_Z.
Definition shows2 (id : Z) (v : goval) (t : gostr) : bool :=
  match fx_apply new_formatter id v with Ok (s, true) => str_eqb s t | _ => false end.
Example ex_C79_text : shows2 14 (GF64 (fh 88395)) (bs "01-01-21") && shows2 15 (GF64 (fh 88395)) (bs "1-Jan-21") &&
  shows2 18 (GF64 (fh 88395)) (bs "12:00 PM") && shows2 22 (GF64 (fh 88395)) (bs "1/1/21 12:00") &&
  shows2 71 (GF64 (fh 88396)) (bs "2/1/2021") && shows2 46 (GF64 (fh 88395)) (bs "12:00:00") = true.
Proof. vm_compute. reflexivity. Qed.
Example ex_C80_text : shows2 41 (GInt KInt64 1234567) (bs "1,234,567") && shows2 42 (GInt KInt64 (-5000)) (bs "$(-5,000)") &&
  shows2 43 (GF64 (fh 2469)) (bs "1,234.50") && shows2 44 (GF64 f_zero) (bs "$-") = true.
Proof. vm_compute. reflexivity. Qed.
Example ex_C81_text : shows2 11 (GF64 (fh 2469135)) (bs "1.23E+06") && shows2 48 (GF64 (f_of_Z 12)) (bs "1.2E+01") &&
  shows2 11 (GF64 (f_norm (-1) (-20))) (bs "-9.54E-07") = true.
Proof. vm_compute. reflexivity. Qed.
Definition ex78_ops : list sop :=
  [OPut 0 0 (GStr (bs "name")) 0; OPut 0 1 (GStr (bs "→")) 0; OPut 1 0 (GInt KInt64 1234) 3; OPut 1 2 (GBool true) 0].
Example ex_C78_hyps : Forall good_put ex78_ops /\
  Forall (fun o => match o with OPut _ _ _ f => known new_formatter f | OResize _ _ => True end) ex78_ops.
Proof.
  split; unfold ex78_ops.
  - repeat constructor; try lia; try discriminate; try (intros (z & H & _); discriminate); cbn; try lia.
  - repeat constructor.
Qed.
Definition strings_of (s : sheet) : list (res (list gostr)) :=
  let s1 := snd (next s) in let s2 := snd (next s1) in [strings s1; types s1; strings s2; formats s2].
Example ex_C78_rows : match run_ops (empty_sheet new_formatter) ex78_ops with Ok s => strings_of s | _ => [] end =
  [Ok [bs "name"; bs "→"; bs ""]; Ok [bs "string"; bs "static"; bs "blank"];
   Ok [bs "1,234"; bs ""; bs "TRUE"]; Ok [bs "#,##0"; bs "General"; bs "General"]].
Proof. vm_compute. reflexivity. Qed.

Print Assumptions C78_views.
Print Assumptions C79_dates.
Print Assumptions C79_hours_refuted.
Print Assumptions C79_quotes_refuted.
Print Assumptions C79_month_refuted.
Print Assumptions C79_elapsed_refuted.
Print Assumptions C80_integers.
Print Assumptions C80_floats.
Print Assumptions C80_negative_refuted.
Print Assumptions C81_scientific.
Print Assumptions C81_engineering_refuted.

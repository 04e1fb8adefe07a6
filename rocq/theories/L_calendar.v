(** * L_calendar: the calendar formulas of GoTime and of dates.go agree with counting days. *)
From Verif Require Import GoBase GoFloat GoTime L_base M_dates S_dates.
From Coq Require Import ZifyBool.
Ltac Zify.zify_post_hook ::= Z.div_mod_to_equations.

(** ** checking all values below a (small) bound *)
Fixpoint all_below (n : nat) (i : Z) (f : Z -> bool) : bool :=
  match n with
  | O => true
  | S k => if f i then all_below k (i + 1) f else false
  end.
Lemma all_below_spec : forall n i f, all_below n i f = true -> forall j, i <= j < i + Z.of_nat n -> f j = true.
Proof.
  induction n; intros i f H j Hj; [lia|]. cbn [all_below] in H.
  destruct (f i) eqn:E; [|discriminate].
  destruct (Z.eq_dec i j) as [->|N]; auto. apply (IHn (i + 1)); auto. lia.
Qed.

(** ** the year of a day in the 400-year era that starts on 1 March *)
Definition year_start (y : Z) : Z := 365 * y + y / 4 - y / 100.
Definition yoe_num (doe : Z) : Z := doe - doe / 1460 + doe / 36524 - doe / 146096.
Definition last_doy (y : Z) : Z := if leap (y + 1) then 365 else 364.

Lemma yoe_num_mono : forall a b, 0 <= a -> a <= b -> b < 146097 -> yoe_num a <= yoe_num b.
Proof.
  intros a b Ha Hab Hb. revert Hb. pattern b. apply Zlt_lower_bound_ind with (z := a); [|exact Hab].
  clear b Hab. intros b IH Hab Hb. destruct (Z.eq_dec a b) as [->|N]; [lia|].
  apply Z.le_trans with (yoe_num (b - 1)); [apply IH; lia|]. clear IH. unfold yoe_num.
  assert (E1 : b / 1460 <= (b - 1) / 1460 + 1) by lia.
  assert (E2 : (b - 1) / 36524 <= b / 36524) by lia.
  destruct (Z.eq_dec b 146096) as [->|N2]; [vm_compute; discriminate|].
  assert (E3 : b / 146096 = 0) by lia. assert (E4 : (b - 1) / 146096 = 0) by lia. lia.
Qed.

Lemma yoe_ends : all_below 400 0 (fun y =>
  (yoe_num (year_start y) / 365 =? y) && (yoe_num (year_start y + last_doy y) / 365 =? y) &&
  (0 <=? year_start y) && (year_start y + last_doy y <? 146097) &&
  (if y <? 399 then year_start y + last_doy y + 1 =? year_start (y + 1) else year_start y + last_doy y =? 146096)) = true.
Proof. vm_compute. reflexivity. Qed.

Lemma yoe_facts : forall y, 0 <= y < 400 ->
  yoe_num (year_start y) / 365 = y /\ yoe_num (year_start y + last_doy y) / 365 = y /\
  0 <= year_start y /\ year_start y + last_doy y < 146097 /\
  (y < 399 -> year_start y + last_doy y + 1 = year_start (y + 1)) /\ (y = 399 -> year_start y + last_doy y = 146096).
Proof.
  intros y Hy. pose proof (all_below_spec _ _ _ yoe_ends y ltac:(lia)) as B. cbv beta in B.
  destruct (y <? 399) eqn:E; repeat (apply andb_prop in B as [B ?]); lia.
Qed.

Lemma last_doy_pos : forall y, 364 <= last_doy y <= 365.
Proof. intros. unfold last_doy. destruct (leap _); lia. Qed.

Lemma yoe_of : forall y doy, 0 <= y < 400 -> 0 <= doy <= last_doy y -> yoe_num (year_start y + doy) / 365 = y.
Proof.
  intros y doy Hy Hd. destruct (yoe_facts y Hy) as (A & B & C & D & _).
  pose proof (yoe_num_mono (year_start y) (year_start y + doy) ltac:(lia) ltac:(lia) ltac:(lia)).
  pose proof (yoe_num_mono (year_start y + doy) (year_start y + last_doy y) ltac:(lia) ltac:(lia) ltac:(lia)).
  pose proof (Z.div_le_mono _ _ 365 ltac:(lia) H). pose proof (Z.div_le_mono _ _ 365 ltac:(lia) H0). lia.
Qed.

Lemma doe_split : forall doe, 0 <= doe < 146097 ->
  exists y doy, 0 <= y < 400 /\ 0 <= doy <= last_doy y /\ doe = year_start y + doy.
Proof.
  intros doe [H0 H1]. revert H1. pattern doe. apply natlike_ind; [| |exact H0]; clear doe H0.
  - intros _. exists 0, 0. pose proof (last_doy_pos 0). repeat split; try lia.
  - intros doe H0 IH H1. destruct IH as (y & doy & Hy & Hd & E); [lia|].
    destruct (yoe_facts y Hy) as (_ & _ & _ & _ & N1 & N2).
    destruct (Z.eq_dec doy (last_doy y)) as [Q|Q].
    + destruct (Z.eq_dec y 399) as [R|R]; [specialize (N2 R); lia|].
      exists (y + 1), 0. pose proof (last_doy_pos (y + 1)). specialize (N1 ltac:(lia)). lia.
    + exists y, (doy + 1). lia.
Qed.

(** ** month and day of a day of the (March-based) year *)
Definition md_mp (doy : Z) : Z := (5 * doy + 2) / 153.
Definition md_d (doy : Z) : Z := doy - (153 * md_mp doy + 2) / 5 + 1.
Definition md_month (mp : Z) : Z := if mp <? 10 then mp + 3 else mp - 9.
Definition md_doy (mp d : Z) : Z := (153 * mp + 2) / 5 + d - 1.
Definition len_of (lp : bool) (m : Z) : Z :=
  if m =? 2 then (if lp then 29 else 28)
  else if (m =? 4) || (m =? 6) || (m =? 9) || (m =? 11) then 30 else 31.
Lemma month_len_len : forall y m, month_len y m = len_of (leap y) m.
Proof. reflexivity. Qed.

Lemma doy_check : all_below 366 0 (fun doy =>
  (0 <=? md_mp doy) && (md_mp doy <? 12) && (1 <=? md_d doy) &&
  (md_d doy <=? len_of true (md_month (md_mp doy))) &&
  ((doy =? 365) || (md_d doy <=? len_of false (md_month (md_mp doy))))) = true.
Proof. vm_compute. reflexivity. Qed.
Lemma md_check : forallb (fun lp => all_below 12 0 (fun mp => all_below 31 1 (fun d =>
  if d <=? len_of lp (md_month mp) then
    (md_mp (md_doy mp d) =? mp) && (0 <=? md_doy mp d) && (md_doy mp d <=? (if lp then 365 else 364))
  else true))) [true; false] = true.
Proof. vm_compute. reflexivity. Qed.
(** outside February the leap year does not matter; in February it is the next March year *)
Lemma md_check2 : all_below 12 0 (fun mp => (mp =? 11) || (len_of true (md_month mp) =? len_of false (md_month mp))) = true.
Proof. vm_compute. reflexivity. Qed.

Definition valid_date (v : Z * Z * Z) : Prop :=
  let '(y, m, d) := v in 1 <= m <= 12 /\ 1 <= d <= month_len y m.

Definition civ (era yoe doy : Z) : Z * Z * Z :=
  let m := md_month (md_mp doy) in
  ((if m <=? 2 then yoe + era * 400 + 1 else yoe + era * 400), m, md_d doy).

Lemma leap_shift : forall y k, leap (y + 400 * k) = leap y.
Proof.
  intros. unfold leap.
  replace ((y + 400 * k) mod 4) with (y mod 4) by (replace (y + 400 * k) with (y + (100 * k) * 4) by lia; rewrite Z_mod_plus_full; auto).
  replace ((y + 400 * k) mod 100) with (y mod 100) by (replace (y + 400 * k) with (y + (4 * k) * 100) by lia; rewrite Z_mod_plus_full; auto).
  replace ((y + 400 * k) mod 400) with (y mod 400) by (replace (y + 400 * k) with (y + k * 400) by lia; rewrite Z_mod_plus_full; auto).
  reflexivity.
Qed.

Lemma civil_decomp : forall n era yoe doy, 0 <= yoe < 400 -> 0 <= doy <= last_doy yoe ->
  n + 719468 = era * 146097 + year_start yoe + doy -> civil_from_days n = civ era yoe doy.
Proof.
  intros n era yoe doy Hy Hd E. destruct (yoe_facts yoe Hy) as (_ & _ & F1 & F2 & _).
  unfold civil_from_days. cbv zeta.
  assert (E1 : (n + 719468) / 146097 = era).
  { symmetry. apply (Z.div_unique _ _ _ (year_start yoe + doy)); lia. }
  assert (E2 : (n + 719468) mod 146097 = year_start yoe + doy).
  { symmetry. apply (Z.mod_unique _ _ era); lia. }
  rewrite E1, E2. fold (yoe_num (year_start yoe + doy)). rewrite (yoe_of yoe doy Hy Hd).
  fold (year_start yoe). replace (year_start yoe + doy - year_start yoe) with doy by lia.
  reflexivity.
Qed.

Lemma days_decomp : forall era yoe mp d, 0 <= yoe < 400 -> 0 <= mp < 12 ->
  days_from_civil (if md_month mp <=? 2 then yoe + era * 400 + 1 else yoe + era * 400) (md_month mp) d =
  era * 146097 + year_start yoe + md_doy mp d - 719468.
Proof.
  intros era yoe mp d Hy Hm. unfold days_from_civil. cbv zeta.
  assert (Q : (if md_month mp <=? 2 then (if md_month mp <=? 2 then yoe + era * 400 + 1 else yoe + era * 400) - 1
               else (if md_month mp <=? 2 then yoe + era * 400 + 1 else yoe + era * 400)) = yoe + era * 400)
    by (destruct (md_month mp <=? 2); lia).
  rewrite Q. assert (M : (if md_month mp <=? 2 then md_month mp + 9 else md_month mp - 3) = mp).
  { unfold md_month. destruct (Z.ltb_spec mp 10).
    - destruct (Z.leb_spec (mp + 3) 2); lia.
    - destruct (Z.leb_spec (mp - 9) 2); lia. }
  rewrite M. unfold year_start, md_doy.
  replace ((yoe + era * 400) / 4) with (yoe / 4 + 100 * era)
    by (replace (yoe + era * 400) with (yoe + (100 * era) * 4) by lia; rewrite Z_div_plus_full; lia).
  replace ((yoe + era * 400) / 100) with (yoe / 100 + 4 * era)
    by (replace (yoe + era * 400) with (yoe + (4 * era) * 100) by lia; rewrite Z_div_plus_full; lia).
  replace ((yoe + era * 400) / 400) with era by (rewrite Z_div_plus_full by lia; rewrite Z.div_small; lia).
  lia.
Qed.

Lemma days_civil : forall n, let '(y, m, d) := civil_from_days n in valid_date (y, m, d) /\ days_from_civil y m d = n.
Proof.
  intros n. set (z := n + 719468).
  destruct (doe_split (z mod 146097)) as (yoe & doy & Hy & Hd & E); [apply Z.mod_pos_bound; lia|].
  assert (EZ : n + 719468 = (z / 146097) * 146097 + year_start yoe + doy).
  { pose proof (Z.div_mod z 146097 ltac:(lia)). fold z. lia. }
  rewrite (civil_decomp n _ yoe doy Hy Hd EZ). unfold civ.
  pose proof (last_doy_pos yoe) as LP.
  pose proof (all_below_spec _ _ _ doy_check doy ltac:(lia)) as B. cbv beta in B.
  repeat (apply andb_prop in B as [B ?]).
  assert (Hmp : 0 <= md_mp doy < 12) by lia.
  rewrite days_decomp by auto. split.
  - unfold valid_date. rewrite month_len_len. split.
    + unfold md_month. destruct (Z.ltb_spec (md_mp doy) 10); lia.
    + destruct (leap (if md_month (md_mp doy) <=? 2 then _ else _)) eqn:LE; [lia|].
      destruct (Z.eqb_spec doy 365) as [Q|Q]; [|lia]. exfalso. subst doy.
      change (md_month (md_mp 365) <=? 2) with true in LE. cbv iota in LE.
      replace (yoe + z / 146097 * 400 + 1) with (yoe + 1 + 400 * (z / 146097)) in LE by lia.
      rewrite leap_shift in LE. unfold last_doy in Hd. rewrite LE in Hd. lia.
  - unfold md_doy, md_d in *. lia.
Qed.

Lemma civil_days : forall y m d, valid_date (y, m, d) -> civil_from_days (days_from_civil y m d) = (y, m, d).
Proof.
  intros y m d [Hm Hd]. set (mp := if m <=? 2 then m + 9 else m - 3). set (y' := if m <=? 2 then y - 1 else y).
  assert (Hmp : 0 <= mp < 12) by (unfold mp; destruct (Z.leb_spec m 2); lia).
  assert (Em : md_month mp = m).
  { unfold md_month, mp. destruct (Z.leb_spec m 2).
    - destruct (Z.ltb_spec (m + 9) 10); lia.
    - destruct (Z.ltb_spec (m - 3) 10); lia. }
  set (era := y' / 400). set (yoe := y' mod 400).
  assert (Hy : 0 <= yoe < 400) by (apply Z.mod_pos_bound; lia).
  assert (EY : y' = yoe + era * 400) by (unfold yoe, era; pose proof (Z.div_mod y' 400 ltac:(lia)); lia).
  assert (Ey : (if md_month mp <=? 2 then yoe + era * 400 + 1 else yoe + era * 400) = y).
  { rewrite Em, <- EY. unfold y'. destruct (m <=? 2); lia. }
  rewrite month_len_len in Hd.
  assert (LL : len_of (leap (yoe + 1)) m = len_of (leap y) m).
  { pose proof (all_below_spec _ _ _ md_check2 mp ltac:(lia)) as B. cbv beta in B. rewrite Em in B.
    apply orb_prop in B as [B|B].
    - assert (M2 : m = 2) by (rewrite <- Em; apply Z.eqb_eq in B; rewrite B; reflexivity).
      replace (leap y) with (leap (yoe + 1)); auto. rewrite <- Ey, Em, M2. change (2 <=? 2) with true. cbv iota.
      replace (yoe + era * 400 + 1) with (yoe + 1 + 400 * era) by lia. symmetry. apply leap_shift.
    - apply Z.eqb_eq in B. destruct (leap (yoe + 1)), (leap y); congruence. }
  rewrite <- LL in Hd.
  assert (CK : md_mp (md_doy mp d) = mp /\ 0 <= md_doy mp d <= last_doy yoe).
  { pose proof md_check as B. cbn [forallb] in B. apply andb_prop in B as [B1 B2]. rewrite andb_true_r in B2.
    assert (D31 : 1 <= d < 1 + Z.of_nat 31).
    { assert (len_of (leap (yoe + 1)) m <= 31) by (unfold len_of; destruct (m =? 2), (leap (yoe + 1)), ((m =? 4) || (m =? 6) || (m =? 9) || (m =? 11)); lia). lia. }
    unfold last_doy. destruct (leap (yoe + 1)).
    - pose proof (all_below_spec _ _ _ B1 mp ltac:(lia)) as C. cbv beta in C.
      pose proof (all_below_spec _ _ _ C d D31) as D. cbv beta in D. rewrite Em in D.
      destruct (Z.leb_spec d (len_of true m)); [|lia]. repeat (apply andb_prop in D as [D ?]). lia.
    - pose proof (all_below_spec _ _ _ B2 mp ltac:(lia)) as C. cbv beta in C.
      pose proof (all_below_spec _ _ _ C d D31) as D. cbv beta in D. rewrite Em in D.
      destruct (Z.leb_spec d (len_of false m)); [|lia]. repeat (apply andb_prop in D as [D ?]). lia. }
  destruct CK as [K1 K2].
  rewrite (civil_decomp (days_from_civil y m d) era yoe (md_doy mp d) Hy K2).
  - unfold civ. rewrite K1, Ey, Em. f_equal. unfold md_d. rewrite K1. unfold md_doy. lia.
  - pose proof (days_decomp era yoe mp d Hy Hmp) as DD. rewrite Ey, Em in DD. rewrite DD. lia.
Qed.

Lemma div_pred : forall y k, 1 < k -> y / k = (y - 1) / k + (if y mod k =? 0 then 1 else 0).
Proof.
  intros y k Hk. pose proof (Z.div_mod y k ltac:(lia)) as E. pose proof (Z.mod_pos_bound y k ltac:(lia)) as B.
  set (q := y / k) in *. set (r := y mod k) in *. destruct (Z.eqb_spec r 0) as [R|R].
  - replace ((y - 1) / k) with (q - 1); [lia|]. apply (Z.div_unique _ _ _ (k - 1)); nia.
  - replace ((y - 1) / k) with q; [lia|]. apply (Z.div_unique _ _ _ (r - 1)); nia.
Qed.

Ltac closed_conds :=
  repeat match goal with
  | |- context [?a <=? ?b] => let r := eval vm_compute in (a <=? b) in
      match r with true => change (a <=? b) with true | false => change (a <=? b) with false end
  | |- context [?a =? ?b] => let r := eval vm_compute in (a =? b) in
      match r with true => change (a =? b) with true | false => change (a =? b) with false end
  end; cbv iota; cbn [orb];
  repeat match goal with
  | |- context [(153 * ?a + 2) / 5] => let r := eval vm_compute in ((153 * a + 2) / 5) in
      change ((153 * a + 2) / 5) with r
  end.

Lemma days_next : forall y m d, valid_date (y, m, d) ->
  valid_date (next_day (y, m, d)) /\
  (let '(y', m', d') := next_day (y, m, d) in days_from_civil y' m' d' = days_from_civil y m d + 1).
Proof.
  intros y m d [Hm Hd]. unfold next_day. destruct (Z.ltb_spec d (month_len y m)).
  - split; [split; lia|]. unfold days_from_civil. cbv zeta. lia.
  - assert (d = month_len y m) by lia. subst d. clear H Hd.
    destruct (Z.ltb_spec m 12).
    + split. { split; [lia|]. unfold month_len. repeat match goal with |- context [if ?b then _ else _] => destruct b end; lia. }
      unfold month_len.
      assert (M : m = 1 \/ m = 2 \/ m = 3 \/ m = 4 \/ m = 5 \/ m = 6 \/ m = 7 \/ m = 8 \/ m = 9 \/ m = 10 \/ m = 11) by lia.
      pose proof (div_pred y 4 ltac:(lia)) as P4. pose proof (div_pred y 100 ltac:(lia)) as P100. pose proof (div_pred y 400 ltac:(lia)) as P400.
      assert (A1 : y mod 400 = 0 -> y mod 100 = 0) by lia. assert (A2 : y mod 100 = 0 -> y mod 4 = 0) by lia.
      clear H Hm. decompose [or] M; clear M; subst m; unfold days_from_civil; cbv zeta; closed_conds; try lia.
      unfold leap. destruct (Z.eqb_spec (y mod 4) 0), (Z.eqb_spec (y mod 100) 0), (Z.eqb_spec (y mod 400) 0); cbn [andb orb negb];
        try (exfalso; tauto); clear - P4 P100 P400; lia.
    + assert (m = 12) by lia. subst m. split. { split; [lia|]. unfold month_len. closed_conds. lia. }
      unfold days_from_civil, month_len. cbv zeta. closed_conds. replace (y + 1 - 1) with y by lia. lia.
Qed.

Lemma civil_next : forall n, civil_from_days (n + 1) = next_day (civil_from_days n).
Proof.
  intros n. pose proof (days_civil n) as D. destruct (civil_from_days n) as [[y m] d] eqn:E. destruct D as [V D].
  pose proof (days_next y m d V) as [V2 D2]. destruct (next_day (y, m, d)) as [[y' m'] d'] eqn:E2.
  rewrite <- D, <- D2. apply civil_days. auto.
Qed.

Lemma civil_iter : forall k n, civil_from_days (n + Z.of_nat k) = Nat.iter k next_day (civil_from_days n).
Proof.
  induction k; intros n; [rewrite Z.add_0_r; reflexivity|].
  rewrite Nat2Z.inj_succ. replace (n + Z.succ (Z.of_nat k)) with (n + Z.of_nat k + 1) by lia.
  rewrite civil_next, IHk. reflexivity.
Qed.

Lemma civil_days_later : forall n k, days_later k (civil_from_days n) (civil_from_days (n + k)).
Proof.
  intros n k. destruct (Z.leb_spec 0 k).
  - left. split; auto. rewrite <- civil_iter. f_equal. lia.
  - right. split; [lia|]. rewrite <- civil_iter. f_equal. lia.
Qed.

(** ** the Julian day formula *)
Lemma jd_month_check : all_below 366 31 (fun L =>
  let J := 80 * L / 2447 in
  (1 <=? J) && (J <=? 12) && (md_doy (J - 1) (L - 2447 * J / 80) =? L - 31) &&
  (md_month (J - 1) =? J + 2 - 12 * (J / 11))) = true.
Proof. vm_compute. reflexivity. Qed.

Lemma jd_days : forall JD, 0 <= JD -> let '(y, m, d) := jd_to_civil JD in
  1 <= m <= 12 /\ days_from_civil y m d = JD - 2440588.
Proof.
  intros JD H. unfold jd_to_civil. cbv zeta.
  rewrite (Z.quot_div_nonneg (4 * (JD + 68569))) by lia.
  set (N := 4 * (JD + 68569) / 146097).
  assert (HN : 146097 * N <= 4 * (JD + 68569) < 146097 * N + 146097) by (unfold N; clear; lia).
  assert (0 <= N) by (unfold N; clear -H; lia).
  rewrite (Z.quot_div_nonneg (146097 * N + 3)) by lia.
  set (P := (146097 * N + 3) / 4).
  assert (HP : 4 * P <= 146097 * N + 3 < 4 * P + 4) by (unfold P; clear; lia).
  set (L1 := JD + 68569 - P).
  assert (HL1 : 0 <= L1 <= 36524) by (unfold L1; clearbody N P; lia).
  rewrite (Z.quot_div_nonneg (4000 * (L1 + 1))) by lia.
  set (I := 4000 * (L1 + 1) / 1461001).
  assert (HI : 1461001 * I <= 4000 * (L1 + 1) < 1461001 * I + 1461001) by (unfold I; clear; lia).
  assert (RI : 0 <= I <= 99) by (clearbody I L1; lia).
  rewrite (Z.quot_div_nonneg (1461 * I)) by lia.
  set (Q := 1461 * I / 4).
  assert (HQ : 4 * Q <= 1461 * I < 4 * Q + 4) by (unfold Q; clear; lia).
  set (L2 := L1 - Q + 31).
  assert (HL2 : 31 <= L2 < 31 + Z.of_nat 366) by (unfold L2; clearbody Q I L1; lia).
  rewrite (Z.quot_div_nonneg (80 * L2)) by lia.
  pose proof (all_below_spec _ _ _ jd_month_check L2 HL2) as B. cbv beta zeta in B.
  set (J := 80 * L2 / 2447) in *. repeat (apply andb_prop in B as [B ?]).
  assert (HJ : 1 <= J <= 12) by (clearbody J; lia).
  rewrite (Z.quot_div_nonneg (2447 * J)) by lia. rewrite (Z.quot_div_nonneg J) by lia.
  set (D := L2 - 2447 * J / 80) in *.
  assert (EM : J + 2 - 12 * (J / 11) = md_month (J - 1)) by (symmetry; apply Z.eqb_eq; auto).
  assert (EDY : md_doy (J - 1) D = L2 - 31) by (apply Z.eqb_eq; auto).
  assert (RM : 1 <= md_month (J - 1) <= 12) by (unfold md_month; destruct (Z.ltb_spec (J - 1) 10); lia).
  split; [rewrite EM; exact RM|].
  set (y' := 100 * (N - 49) + I). set (era := y' / 400). set (yoe := y' mod 400).
  assert (Hy : 0 <= yoe < 400) by (apply Z.mod_pos_bound; lia).
  assert (EY : y' = yoe + era * 400) by (unfold yoe, era; pose proof (Z.div_mod y' 400 ltac:(lia)); lia).
  assert (Ey : y' + J / 11 = (if md_month (J - 1) <=? 2 then yoe + era * 400 + 1 else yoe + era * 400)).
  { rewrite <- EY. destruct (Z.leb_spec (md_month (J - 1)) 2) as [C|C]; clear - HJ EM C RM; clearbody J; lia. }
  rewrite Ey, EM, days_decomp by lia. rewrite EDY. unfold year_start.
  clear - EY Hy HN HP HI RI HQ. subst L2 L1 y'. clearbody N P I Q era yoe.
  assert (E1 : yoe / 100 = N - 49 - 4 * era) by lia.
  assert (E2 : yoe / 4 = 25 * (N - 49 - 4 * era) + I / 4) by lia.
  rewrite E1, E2. assert (E3 : Q = 365 * I + I / 4) by lia.
  assert (E4 : P = 36524 * N + (N + 3) / 4) by lia.
  assert (E5 : era = (N - 49) / 4) by lia. lia.
Qed.

Lemma jd_date : forall JD, 0 <= JD -> (let '(y, m, d) := jd_to_civil JD in go_date y m d) = (JD - 2440588) * ns_per_day.
Proof.
  intros JD H. pose proof (jd_days JD H) as D. destruct (jd_to_civil JD) as [[y m] d]. destruct D as [D1 D2].
  unfold go_date. rewrite <- D2. f_equal. f_equal; [|].
  - replace ((m - 1) / 12) with 0 by (symmetry; apply Z.div_small; lia). lia.
  - rewrite Z.mod_small by lia. lia.
Qed.

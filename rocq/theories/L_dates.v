(** * L_dates: the date conversion. *)
From Verif Require Import GoBase GoFloat GoTime L_base L_float L_numbers M_dates S_dates L_calendar.
From Coq Require Import Reals Lra Psatz.
From Flocq Require Import Core IEEE754.BinarySingleNaN.
Open Scope Z_scope.

(** ** The conversion on reals *)
Definition jd_off (m : bool) : R := (if m then 4832961 / 2 else 4830037 / 2)%R.
Definition jdate_r (m : bool) (x : R) : R := RN (RN (x + / 2) + jd_off m).
Definition day_time (f : R) : Z := Ztrunc (RN (IZR ns_per_day * f)).
Definition conv_r (m : bool) (x : R) : Z :=
  if Ztrunc x <? 61 then
    (Ztrunc (jdate_r m x) - 2440588) * ns_per_day + day_time (jdate_r m x - IZR (Ztrunc (jdate_r m x)))
  else ((if m then -24107 else -25569) + Ztrunc x) * ns_per_day + day_time (x - IZR (Ztrunc x)).

Open Scope R_scope.
Lemma f_half_of : forall z, (Z.abs z < 2 ^ 53)%Z -> B2R (f_norm z (-1)) = IZR z / 2 /\ f_is_finite (f_norm z (-1)) = true.
Proof.
  intros z Hz. destruct (f_norm_correct z (-1)) as [E F].
  - apply Rle_trans with (bpow radix2 53).
    + unfold F2R. cbn [Fnum Fexp]. change (bpow radix2 (-1)) with (/ 2). rewrite Rabs_mult, (Rabs_pos_eq (/ 2)) by lra.
      rewrite <- abs_IZR. assert (IZR (Z.abs z) <= IZR (2 ^ 53)) by (apply IZR_le; lia).
      rewrite IZR_pow2 in H by lia. assert (0 <= IZR (Z.abs z)) by (apply IZR_le; lia). lra.
    + apply bpow_le. lia.
  - rewrite E. split; auto. rewrite round_generic; [|typeclasses eauto|apply format_F2R; lia].
    unfold F2R. cbn [Fnum Fexp]. change (bpow radix2 (-1)) with (/ 2). reflexivity.
Qed.
Lemma f_half_val : B2R f_half = / 2 /\ f_is_finite f_half = true.
Proof. destruct (f_half_of 1) as [E F]; [lia|]. unfold f_half. split; auto. rewrite E. lra. Qed.
Lemma f_jd_val : forall m : bool, B2R (if m then f_jd1904 else f_jd1900) = jd_off m /\
  f_is_finite (if m then f_jd1904 else f_jd1900) = true.
Proof. intros m. unfold jd_off. destruct m; apply f_half_of; lia. Qed.

Definition in_range (m : bool) (x : R) : Prop := (if m then -2416481 else -2415019) <= x <= IZR (2 ^ 40).

Lemma range_2_41 : forall m x, in_range m x -> - IZR (2 ^ 40) <= x <= IZR (2 ^ 40).
Proof.
  intros m x [H1 H2]. split; auto. change (2 ^ 40)%Z with 1099511627776%Z. destruct m; lra.
Qed.
Lemma small_1023 : forall x, Rabs x <= IZR (2 ^ 60) -> Rabs x <= bpow radix2 1023.
Proof. intros. rewrite IZR_pow2 in H by lia. apply Rle_trans with (1 := H). apply bpow_le. lia. Qed.
Lemma RN_bound : forall x (z : Z), (0 <= z <= 2 ^ 53)%Z -> Rabs x <= IZR z -> Rabs (RN x) <= IZR z.
Proof.
  intros x z Hz H. apply abs_round_le_generic; auto; try typeclasses eauto. apply format_Z. lia.
Qed.
Lemma RN_lo : forall x (z : Z), (Z.abs z <= 2 ^ 53)%Z -> IZR z <= x -> IZR z <= RN x.
Proof. intros x z Hz H. rewrite <- (RN_Z z) by auto. apply RN_le. auto. Qed.
Lemma RN_hi : forall x (z : Z), (Z.abs z <= 2 ^ 53)%Z -> x <= IZR z -> RN x <= IZR z.
Proof. intros x z Hz H. rewrite <- (RN_Z z) by auto. apply RN_le. auto. Qed.

Lemma half_fmt : forall z, (Z.abs z < 2 ^ 53)%Z -> RN (IZR z / 2) = IZR z / 2.
Proof.
  intros. apply round_generic; [typeclasses eauto|]. replace (IZR z / 2) with (F2R (Float radix2 z (-1))).
  - apply format_F2R; lia.
  - unfold F2R. cbn [Fnum Fexp]. reflexivity.
Qed.

Lemma jdate_range : forall m x, in_range m x -> 0 <= jdate_r m x <= IZR (2 ^ 42).
Proof.
  intros m x [H1 H2]. unfold jdate_r, jd_off.
  assert (A : RN (x + / 2) <= IZR (2 ^ 40 + 1)).
  { apply RN_hi; [lia|]. rewrite plus_IZR. lra. }
  split.
  - apply (RN_lo _ 0); [lia|]. destruct m.
    + assert (IZR (-4832961) / 2 <= RN (x + / 2)).
      { rewrite <- half_fmt by lia. apply RN_le. lra. }
      lra.
    + assert (IZR (-4830037) / 2 <= RN (x + / 2)).
      { rewrite <- half_fmt by lia. apply RN_le. lra. }
      lra.
  - apply RN_hi; [lia|]. rewrite plus_IZR in A. change (2 ^ 40)%Z with 1099511627776%Z in A. change (2 ^ 42)%Z with 4398046511104%Z.
    destruct m; lra.
Qed.

Lemma Ztrunc_range : forall x (z : Z), 0 <= x <= IZR z -> (0 <= Ztrunc x <= z)%Z.
Proof.
  intros x z [H1 H2]. split.
  - rewrite <- (Ztrunc_IZR 0). apply Ztrunc_le. auto.
  - rewrite <- (Ztrunc_IZR z). apply Ztrunc_le. auto.
Qed.
Lemma frac_range : forall x, 0 <= x -> 0 <= x - IZR (Ztrunc x) < 1.
Proof.
  intros x H. rewrite Ztrunc_floor by auto. pose proof (Zfloor_lb x). pose proof (Zfloor_ub x). lra.
Qed.

Lemma time_part : forall f, f_is_finite f = true -> 0 <= B2R f < 1 ->
  f_to_int64 (fmul f_day_ns f) = day_time (B2R f).
Proof.
  intros f F H. destruct (f_of_Z_exact 86400000000000) as [D1 D2]; [lia|]. fold f_day_ns in D1, D2.
  assert (B : 0 <= IZR 86400000000000 * B2R f <= IZR 86400000000000).
  { split; [apply Rmult_le_pos; lra|]. rewrite <- (Rmult_1_r (IZR 86400000000000)) at 2. apply Rmult_le_compat_l; lra. }
  destruct (fmul_correct f_day_ns f) as [M1 M2]; auto.
  { rewrite D1. apply small_1023. rewrite Rabs_pos_eq by lra. apply Rle_trans with (1 := proj2 B). apply IZR_le. lia. }
  rewrite D1 in M1.
  assert (C : 0 <= RN (IZR 86400000000000 * B2R f) <= IZR 86400000000000).
  { split; [apply (RN_lo _ 0); [lia|lra]|apply RN_hi; [lia|lra]]. }
  apply Ztrunc_range in C.
  rewrite f_to_int64_trunc; auto; rewrite M1; [reflexivity|unfold two63; lia].
Qed.

Lemma sub_trunc : forall x, f_is_finite x = true -> 0 <= B2R x <= IZR (2 ^ 42) ->
  f_to_int64 x = Ztrunc (B2R x) /\
  B2R (fsub x (f_of_Z (Ztrunc (B2R x)))) = B2R x - IZR (Ztrunc (B2R x)) /\
  f_is_finite (fsub x (f_of_Z (Ztrunc (B2R x)))) = true.
Proof.
  intros x F H. pose proof (Ztrunc_range _ _ H) as T. pose proof (frac_range _ (proj1 H)) as G.
  split; [rewrite f_to_int64_trunc; auto; unfold two63; lia|].
  destruct (f_of_Z_exact (Ztrunc (B2R x))) as [E1 E2]; [lia|].
  destruct (fsub_correct x (f_of_Z (Ztrunc (B2R x)))) as [S1 S2]; auto.
  { rewrite E1. apply small_1023. rewrite Rabs_pos_eq by lra. apply Rle_trans with 1; [lra|]. apply (IZR_le 1). lia. }
  split; auto. rewrite S1, E1. apply round_generic; [typeclasses eauto|]. apply frac_exact. apply B2R_format.
Qed.

Lemma convert_real : forall m x, f_is_finite x = true -> in_range m (B2R x) ->
  convert_to_date m x = conv_r m (B2R x).
Proof.
  intros m x F H. pose proof (range_2_41 _ _ H) as R1.
  assert (TR : f_to_int64 x = Ztrunc (B2R x)).
  { apply f_to_int64_trunc; auto. unfold two63. split.
    - apply Z.le_trans with (- 2 ^ 40)%Z; [lia|]. rewrite <- (Ztrunc_IZR (- 2 ^ 40)). apply Ztrunc_le. rewrite opp_IZR. lra.
    - apply Z.le_lt_trans with (2 ^ 40)%Z; [|lia]. rewrite <- (Ztrunc_IZR (2 ^ 40)). apply Ztrunc_le. lra. }
  unfold convert_to_date, conv_r. cbv zeta. rewrite TR.
  destruct (Z.ltb_spec (Ztrunc (B2R x)) 61) as [L|L].
  - destruct f_half_val as [H1 H2]. destruct (f_jd_val m) as [J1 J2].
    assert (BIG : 1099511627776 = IZR (2 ^ 40)) by reflexivity.
    destruct (fadd_correct x f_half) as [A1 A2]; auto.
    { rewrite H1. apply small_1023. apply Rabs_le. split.
      - apply Rle_trans with (- IZR (2 ^ 41)); [apply Ropp_le_contravar, IZR_le; lia|]. change (2 ^ 41)%Z with 2199023255552%Z. lra.
      - apply Rle_trans with (IZR (2 ^ 41)); [|apply IZR_le; lia]. change (2 ^ 41)%Z with 2199023255552%Z. lra. }
    rewrite H1 in A1.
    destruct (fadd_correct (fadd x f_half) (if m then f_jd1904 else f_jd1900)) as [B1 B2]; auto.
    { rewrite A1, J1. apply small_1023.
      assert (Q : Rabs (RN (B2R x + / 2)) <= IZR (2 ^ 41)).
      { apply RN_bound; [lia|]. apply Rabs_le. change (2 ^ 41)%Z with 2199023255552%Z. lra. }
      apply Rabs_le_inv in Q. apply Rabs_le. change (2 ^ 41)%Z with 2199023255552%Z in Q. change (2 ^ 60)%Z with 1152921504606846976%Z.
      unfold jd_off. destruct m; lra. }
    rewrite A1, J1 in B1. fold (jdate_r m (B2R x)) in B1.
    pose proof (jdate_range m _ H) as JR. rewrite <- B1 in JR.
    destruct (sub_trunc _ B2 JR) as (S1 & S2 & S3). rewrite S1. rewrite B1 in *.
    rewrite time_part; auto; [|rewrite S2; apply frac_range; apply JR].
    rewrite S2. pose proof (Ztrunc_range _ _ JR) as T. pose proof (jd_date _ (proj1 T)) as D.
    destruct (jd_to_civil (Ztrunc (jdate_r m (B2R x)))) as [[y mo] d]. rewrite D. reflexivity.
  - assert (P : 0 <= B2R x <= IZR (2 ^ 42)).
    { split.
      - destruct (Rle_or_lt 0 (B2R x)) as [Q|Q]; auto. exfalso.
        assert (Ztrunc (B2R x) <= Ztrunc 0)%Z by (apply Ztrunc_le; lra). rewrite (Ztrunc_IZR 0) in H0. lia.
      - change (2 ^ 42)%Z with 4398046511104%Z. change (2 ^ 40)%Z with 1099511627776%Z in R1. lra. }
    destruct (sub_trunc x F P) as (S1 & S2 & S3).
    rewrite time_part; auto; [|rewrite S2; apply frac_range; apply P]. rewrite S2.
    assert (E : (if m then go_date 1904 1 1 else go_date 1899 12 30) = ((if m then -24107 else -25569) * ns_per_day)%Z)
      by (destruct m; reflexivity).
    rewrite E. unfold add_days. f_equal. rewrite <- Z.mul_add_distr_r. reflexivity.
Qed.

Lemma jdate_int : forall m n, in_range m (IZR n) -> jdate_r m (IZR n) = IZR (n + (if m then 2416481 else 2415019)).
Proof.
  intros m n H. unfold jdate_r.
  assert (N : (- 2 ^ 40 <= n <= 2 ^ 40)%Z).
  { apply range_2_41 in H. split; apply le_IZR; [rewrite opp_IZR|]; lra. }
  replace (IZR n + / 2) with (IZR (2 * n + 1) / 2) by (rewrite plus_IZR, mult_IZR; lra).
  rewrite half_fmt by lia.
  replace (IZR (2 * n + 1) / 2 + jd_off m) with (IZR (n + (if m then 2416481 else 2415019))).
  - apply RN_Z. destruct m; lia.
  - rewrite !plus_IZR, mult_IZR. unfold jd_off. destruct m; lra.
Qed.

Lemma day_time_0 : day_time 0 = 0%Z.
Proof. unfold day_time. rewrite Rmult_0_r, RN_0. apply (Ztrunc_IZR 0). Qed.

(** integral serials *)
Lemma conv_int : forall m n, in_range m (IZR n) ->
  conv_r m (IZR n) = (((if m then -24107 else -25569) + n) * ns_per_day)%Z.
Proof.
  intros m n H. unfold conv_r. rewrite jdate_int by auto. rewrite !Ztrunc_IZR. rewrite !(Rminus_diag_eq _ _ eq_refl), day_time_0.
  destruct (n <? 61)%Z; destruct m; lia.
Qed.

(** monotonicity *)
Lemma jdate_mono : forall m x y, x <= y -> jdate_r m x <= jdate_r m y.
Proof.
  intros. unfold jdate_r. apply RN_le. apply Rplus_le_compat_r. apply RN_le. lra.
Qed.
Lemma day_time_mono : forall x y, x <= y -> (day_time x <= day_time y)%Z.
Proof.
  intros. unfold day_time. apply Ztrunc_le. apply RN_le. apply Rmult_le_compat_l; auto. apply IZR_le. vm_compute. discriminate.
Qed.
Lemma day_time_range : forall x, 0 <= x < 1 -> (0 <= day_time x <= ns_per_day)%Z.
Proof.
  intros x H. unfold day_time. apply Ztrunc_range. unfold ns_per_day. split.
  - apply (RN_lo _ 0); [lia|]. apply Rmult_le_pos; lra.
  - apply RN_hi; [lia|]. rewrite <- (Rmult_1_r (IZR 86400000000000)) at 2. apply Rmult_le_compat_l; lra.
Qed.

Lemma clock_mono : forall k x y, 0 <= x -> x <= y ->
  ((Ztrunc x - k) * ns_per_day + day_time (x - IZR (Ztrunc x)) <=
   (Ztrunc y - k) * ns_per_day + day_time (y - IZR (Ztrunc y)))%Z.
Proof.
  intros k x y H0 H. pose proof (Ztrunc_le _ _ H) as T.
  pose proof (day_time_range _ (frac_range x H0)). pose proof (day_time_range _ (frac_range y ltac:(lra))).
  unfold ns_per_day in *.
  destruct (Z.eq_dec (Ztrunc x) (Ztrunc y)) as [E|N].
  - rewrite E. pose proof (day_time_mono (x - IZR (Ztrunc y)) (y - IZR (Ztrunc y)) ltac:(lra)). lia.
  - lia.
Qed.

Lemma conv_mono : forall m x y, in_range m x -> in_range m y -> x <= y -> (conv_r m x <= conv_r m y)%Z.
Proof.
  intros m x y Hx Hy H. unfold conv_r.
  pose proof (Ztrunc_le _ _ H) as T.
  pose proof (jdate_mono m x y H) as J. pose proof (jdate_range m x Hx) as JX. pose proof (jdate_range m y Hy) as JY.
  destruct (Z.ltb_spec (Ztrunc x) 61) as [Lx|Lx], (Z.ltb_spec (Ztrunc y) 61) as [Ly|Ly]; try lia.
  - apply clock_mono; lra.
  - assert (X61 : x <= 61).
    { destruct (Rle_or_lt x 61) as [Q|Q]; auto. exfalso.
      assert (Ztrunc 61 <= Ztrunc x)%Z by (apply Ztrunc_le; lra). rewrite (Ztrunc_IZR 61) in H0. lia. }
    assert (Y0 : 61 <= y).
    { destruct (Rle_or_lt 61 y) as [Q|Q]; auto. exfalso.
      destruct (Rle_or_lt 0 y) as [P|P].
      - rewrite Ztrunc_floor in Ly by auto. assert (Zfloor y < 61)%Z; [|lia].
        apply lt_IZR. apply Rle_lt_trans with (1 := Zfloor_lb y). auto.
      - assert (Ztrunc y <= Ztrunc 0)%Z by (apply Ztrunc_le; lra). rewrite (Ztrunc_IZR 0) in H0. lia. }
    assert (R61 : in_range m 61).
    { split; [destruct m; lra|]. change (2 ^ 40)%Z with 1099511627776%Z. lra. }
    pose proof (clock_mono 2440588 _ _ (proj1 JX) (jdate_mono m x 61 X61)) as C1.
    rewrite (jdate_int m 61 R61) in C1. rewrite Ztrunc_IZR, (Rminus_diag_eq _ _ eq_refl), day_time_0 in C1.
    pose proof (clock_mono (if m then 24107 else 25569) 61 y ltac:(lra) Y0) as C2.
    rewrite (Ztrunc_IZR 61) in C2. rewrite (Rminus_diag_eq _ _ eq_refl), day_time_0 in C2.
    destruct m; unfold ns_per_day in *; lia.
  - assert (0 <= x).
    { destruct (Rle_or_lt 0 x) as [Q|Q]; auto. exfalso.
      assert (Ztrunc x <= Ztrunc 0)%Z by (apply Ztrunc_le; lra). rewrite (Ztrunc_IZR 0) in H0. lia. }
    pose proof (clock_mono (if m then 24107 else 25569) x y H0 H) as C2. destruct m; lia.
Qed.

(** from serial 61 on the time of day stays below one day *)
Lemma day_time_lt : forall x, 0 <= x <= 1 - bpow radix2 (-47) -> (0 <= day_time x < ns_per_day)%Z.
Proof.
  intros x H. unfold day_time. assert (B47 : bpow radix2 (-47) = / 140737488355328) by reflexivity.
  assert (C : 0 <= RN (IZR ns_per_day * x) <= IZR 172799999999999 / 2).
  { split.
    - apply (RN_lo _ 0); [lia|]. apply Rmult_le_pos; [unfold ns_per_day|]; lra.
    - rewrite <- half_fmt by lia. apply RN_le. unfold ns_per_day.
      apply Rle_trans with (86400000000000 * (1 - bpow radix2 (-47))); [apply Rmult_le_compat_l; lra|]. rewrite B47. lra. }
  split; [apply (Ztrunc_range _ ns_per_day); unfold ns_per_day in *; lra|].
  apply lt_IZR. rewrite Ztrunc_floor by lra. apply Rle_lt_trans with (1 := Zfloor_lb _). unfold ns_per_day in *. lra.
Qed.
Lemma frac_grid : forall x, generic_format radix2 fexp64 x -> 61 <= x -> 0 <= x - IZR (Ztrunc x) <= 1 - bpow radix2 (-47).
Proof.
  intros x G H. pose proof (frac_range x ltac:(lra)) as [F1 F2]. split; auto.
  destruct (float_grid 5 x) as [k Hk]; auto; [lia|change (bpow radix2 5) with 32; lra|].
  change (5 - 52)%Z with (-47)%Z in Hk.
  assert (E : x - IZR (Ztrunc x) = IZR (k - Ztrunc x * 2 ^ 47) * bpow radix2 (-47)).
  { rewrite minus_IZR, mult_IZR, Rmult_minus_distr_r. rewrite Hk at 1. f_equal. rewrite IZR_pow2 by lia.
    rewrite Rmult_assoc, <- bpow_plus. change (bpow radix2 (47 + -47)) with 1. ring. }
  rewrite E in F2. assert (B47 : bpow radix2 (-47) = / 140737488355328) by reflexivity.
  assert (K : (k - Ztrunc x * 2 ^ 47 < 140737488355328)%Z).
  { apply lt_IZR. rewrite B47 in F2. apply Rmult_lt_reg_r with (/ 140737488355328); lra. }
  rewrite E, B47. assert (IZR (k - Ztrunc x * 2 ^ 47) <= IZR 140737488355327) by (apply IZR_le; lia).
  lra.
Qed.

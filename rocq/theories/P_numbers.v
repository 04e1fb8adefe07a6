(** * P_numbers: C33, fraction approximation (commonxl/numbers.go). *)
From Verif Require Import GoBase GoFloat L_base L_float M_numbers L_numbers L_fraction M_value M_fmt M_formats S_formats L_formats.
From Coq Require Import Reals Lra Psatz.
From Flocq Require Import Core IEEE754.BinarySingleNaN.
Open Scope R_scope.

(** [fuel] bounds the loop iterations of the model: 101 are enough for every float64, so the
    loop of the code runs at most 101 times (digit limits up to 15; 0 means 2). *)
Theorem C33_terminates : forall fuel val nn nd, (100 <= fuel)%nat ->
  (0 <= nn <= 15)%Z -> (0 <= nd <= 15)%Z ->
  exists n d, decimal_to_fraction fuel val nn nd = Ok (n, d).
Proof.
  intros. destruct (fraction_total fuel val nn nd) as [[n d] E]; eauto.
Qed.

Theorem C33_whole_terminates : forall fuel val nn nd, (100 <= fuel)%nat ->
  (0 <= nn <= 15)%Z -> (0 <= nd <= 15)%Z ->
  exists w n d, decimal_to_whole_fraction fuel val nn nd = Ok (w, n, d).
Proof.
  intros. destruct (whole_fraction_total fuel val nn nd) as [[[w n] d] E]; eauto.
Qed.

Definition digit_limit (n : Z) : Z := if (n =? 0)%Z then 2%Z else n.

(** For a value strictly between 1e-9 and 1 the digit limits hold and the numerator is within
    5/8 of val * den (i.e. it is the nearest integer, up to the rounding of that product). *)
Lemma limits_below_1 : forall fuel val nn nd, (101 <= fuel)%nat ->
  f_is_finite val = true -> / IZR (10 ^ 9) < B2R val < 1 ->
  (0 <= nn <= 15)%Z -> (0 <= nd <= 15)%Z ->
  exists n d, decimal_to_fraction fuel val nn nd = Ok (n, d) /\
    (0 <= n < 10 ^ digit_limit nn)%Z /\ (1 <= d < 10 ^ digit_limit nd)%Z /\
    Rabs (B2R val - IZR n / IZR d) <= 5 / 8 / IZR d.
Proof.
  intros fuel val nn nd HF F Hv Hn Hd.
  destruct (fraction_near fuel val nn nd HF F Hv Hn Hd) as (n & d & E & N & D & A).
  exists n, d. repeat split; try apply N; try apply D; auto.
  assert (1 <= IZR d) by (apply (IZR_le 1); apply D).
  replace (B2R val - IZR n / IZR d) with (- (IZR n - B2R val * IZR d) / IZR d) by (field; lra).
  unfold Rdiv at 1. rewrite Rabs_mult, Rabs_Ropp, Rabs_inv, (Rabs_pos_eq (IZR d)) by lra.
  apply Rmult_le_compat_r; [|exact A]. apply Rlt_le, Rinv_0_lt_compat. lra.
Qed.

(** With at most three digits the fraction is in lowest terms and as close as the digits allow: it
    differs from the value by at most 1/(d 10^k) (as the convergents of a continued fraction do),
    up to 1e-9. *)
Theorem C33_close : forall fuel val nn nd, (101 <= fuel)%nat ->
  f_is_finite val = true -> / IZR (10 ^ 9) < B2R val < 1 -> (0 <= nn <= 15)%Z -> (0 <= nd <= 3)%Z ->
  exists n d, decimal_to_fraction fuel val nn nd = Ok (n, d) /\
    (0 <= n < 10 ^ digit_limit nn)%Z /\ (1 <= d < 10 ^ digit_limit nd)%Z /\ Z.gcd n d = 1%Z /\
    Rabs (B2R val - IZR n / IZR d) <= / (IZR d * IZR (10 ^ Z.min (digit_limit nn) (digit_limit nd))) + / IZR (10 ^ 9).
Proof. exact fraction_close. Qed.

(** Whole part and fraction of an arbitrary value of moderate size. *)
Theorem C33_whole_fraction : forall fuel val nn nd, (101 <= fuel)%nat ->
  f_is_finite val = true -> Rabs (B2R val) < IZR (2 ^ 60) ->
  (0 <= nn <= 15)%Z -> (0 <= nd <= 15)%Z ->
  let part := Rabs (B2R val - IZR (Ztrunc (B2R val))) in
  exists n d, decimal_to_whole_fraction fuel val nn nd = Ok (Ztrunc (B2R val), n, d) /\
    (part = 0 -> n = 0%Z /\ d = 1%Z) /\
    (/ IZR (10 ^ 9) < part ->
       (0 <= n < 10 ^ digit_limit nn)%Z /\ (1 <= d < 10 ^ digit_limit nd)%Z /\
       Rabs (IZR n - part * IZR d) <= 5 / 8 /\
       ((nd <= 3)%Z -> Z.gcd n d = 1%Z /\ Rabs (part - IZR n / IZR d) <= / (IZR d * IZR (10 ^ Z.min (digit_limit nn) (digit_limit nd))) + / IZR (10 ^ 9))).
Proof.
  intros fuel val nn nd HF F HB Hn Hd. cbv zeta.
  destruct (modf_frac val F) as [E1 E2].
  assert (TI : f_to_int64 (f_trunc val) = Ztrunc (B2R val)).
  { assert (BT : (- 2 ^ 60 <= Ztrunc (B2R val) <= 2 ^ 60)%Z).
    { apply Rabs_def2 in HB as [HB1 HB2]. rewrite <- opp_IZR in HB2. split.
      - rewrite <- (Ztrunc_IZR (- 2 ^ 60)). apply Ztrunc_le. lra.
      - rewrite <- (Ztrunc_IZR (2 ^ 60)). apply Ztrunc_le. lra. }
    rewrite f_to_int64_trunc; rewrite ?f_trunc_finite, ?f_trunc_real, ?Ztrunc_IZR; auto.
    unfold two63 in *. lia. }
  unfold decimal_to_whole_fraction. unfold f_modf in *. cbn [snd] in *.
  set (fr := fsub val (f_trunc val)) in *.
  destruct (feq fr f_zero) eqn:C.
  - apply feq_real in C; auto. rewrite f_zero_real, E1 in C.
    exists 0%Z, 1%Z. rewrite TI. split; auto. split; auto.
    rewrite C, Rabs_R0. intros H. exfalso.
    assert (0 < / IZR (10 ^ 9)) by (apply Rinv_0_lt_compat; apply (IZR_lt 0); reflexivity). lra.
  - assert (C0 : B2R fr <> 0).
    { intros E. assert (feq fr f_zero = true) by (apply feq_real; auto). congruence. }
    rewrite E1 in C0.
    set (pt := if flt fr f_zero then fneg fr else fr).
    assert (FP : f_is_finite pt = true) by (unfold pt; destruct (flt fr f_zero); rewrite ?fneg_finite; auto).
    assert (EP : B2R pt = Rabs (B2R val - IZR (Ztrunc (B2R val)))).
    { unfold pt. destruct (flt fr f_zero) eqn:Q.
      - apply flt_real in Q; auto. rewrite f_zero_real, E1 in Q. rewrite fneg_real, E1, Rabs_left; auto.
      - apply flt_real_false in Q; auto. rewrite f_zero_real, E1 in Q. rewrite E1, Rabs_pos_eq; auto. }
    destruct (Rlt_or_le (/ IZR (10 ^ 9)) (B2R pt)) as [L|L].
    + assert (B2R pt < 1).
      { rewrite EP. destruct (Rle_or_lt 0 (B2R val)) as [X|X].
        - rewrite Ztrunc_floor by auto. pose proof (Zfloor_lb (B2R val)). pose proof (Zfloor_ub (B2R val)).
          rewrite Rabs_pos_eq; lra.
        - rewrite Ztrunc_ceil by lra. pose proof (Zceil_ub (B2R val)). pose proof (Zceil_lb (B2R val)).
          rewrite Rabs_left1; lra. }
      destruct (fraction_near fuel pt nn nd) as (n & d & E & N & D & A); auto.
      exists n, d. rewrite E. cbn [bind]. rewrite TI. split; auto. split.
      * intros Z0. apply Rabs_no_R0 in C0. contradiction.
      * intros _. split; [exact N|]. split; [exact D|]. rewrite <- EP. split; [exact A|]. intros H3.
        destruct (C33_close fuel pt nn nd) as (n' & d' & E' & _ & _ & G & C'); auto; [lia|]. rewrite E in E'. injection E' as <- <-. auto.
    + destruct (fraction_total fuel pt nn nd) as [[n d] E]; auto; [lia|].
      exists n, d. rewrite E. cbn [bind]. rewrite TI. split; auto. split.
      * intros Z0. apply Rabs_no_R0 in C0. contradiction.
      * intros L2. rewrite <- EP in L2. lra.
Qed.

(** Refuted beyond that: every negative non-integral value yields -1/1000000000, and every
    positive fraction below 1e-9 yields 1/1000000000, whatever the digit limits. *)
Theorem C33_negative_refuted : forall fuel val nn nd,
  f_is_finite val = true -> B2R val < 0 -> B2R val <> IZR (Ztrunc (B2R val)) ->
  decimal_to_fraction fuel val nn nd = Ok (-1, 1000000000)%Z.
Proof.
  intros fuel val nn nd F N Q. destruct (modf_frac val F) as [E1 E2]. destruct f_1em9_val as [V1 V2].
  unfold decimal_to_fraction.
  assert (H0 : flt val f_zero = true) by (apply flt_real; auto).
  rewrite H0. unfold f_modf in *. cbn [snd] in *. set (fr := fsub val (f_trunc val)) in *.
  destruct (feq fr f_zero) eqn:C.
  - apply feq_real in C; auto. rewrite f_zero_real, E1 in C. lra.
  - assert (flt fr f_1em9 = true); [|rewrite H; reflexivity].
    apply flt_real; auto. rewrite E1, V1.
    assert (0 < IZR 4835703278458517 * bpow radix2 (-82)).
    { apply Rmult_lt_0_compat; [apply (IZR_lt 0); reflexivity|apply bpow_gt_0]. }
    rewrite Ztrunc_ceil by lra. pose proof (Zceil_ub (B2R val)). lra.
Qed.

(** Whole numbers are themselves over 1, with their sign. *)
Theorem C33_whole : forall fuel val v nn nd, f_is_finite val = true -> B2R val = IZR v -> (Z.abs v < 2 ^ 63)%Z ->
  decimal_to_fraction fuel val nn nd = Ok (v, 1%Z).
Proof.
  intros fuel val v nn nd F E B. destruct (modf_frac val F) as [E1 E2]. unfold decimal_to_fraction.
  destruct (f_modf val) as [ip fp]. cbn [snd] in *. rewrite E, Ztrunc_IZR in E1.
  assert (C : feq fp f_zero = true) by (apply feq_real; auto; rewrite f_zero_real; lra).
  assert (TI : forall x k, f_is_finite x = true -> B2R x = IZR k -> (0 <= k < 2 ^ 63)%Z -> f_to_int64 x = k).
  { intros x k Fx Ex Bk. rewrite f_to_int64_trunc; auto; rewrite Ex, Ztrunc_IZR; unfold two63 in *; lia. }
  destruct (flt val f_zero) eqn:S; cbv beta iota zeta; rewrite C.
  - apply flt_real in S; auto. rewrite f_zero_real, E in S. apply (lt_IZR _ 0) in S.
    rewrite (TI (fneg val) (- v)%Z); [f_equal; f_equal; lia|rewrite fneg_finite; auto|rewrite fneg_real, E, opp_IZR; lra|lia].
  - apply flt_real_false in S; auto. rewrite f_zero_real, E in S. apply (le_IZR 0) in S.
    rewrite (TI val v); auto; [f_equal; f_equal; lia|lia].
Qed.

(** the three tests before the loop, for a fractional part above 1e-9 *)
Lemma loop_reached : forall val, f_is_finite val = true -> / IZR (10 ^ 9) < B2R val - IZR (Ztrunc (B2R val)) ->
  flt (snd (f_modf val)) f_1em9 = false /\ feq (snd (f_modf val)) f_zero = false /\ fgt (snd (f_modf val)) f_1e9 = false.
Proof.
  intros val F H. destruct (modf_frac val F) as [E1 E2]. destruct f_1em9_val as [V1 V2].
  assert (P : 0 < / IZR (10 ^ 9)) by (apply Rinv_0_lt_compat; apply (IZR_lt 0); reflexivity).
  assert (G : generic_format radix2 fexp64 (B2R (snd (f_modf val)))) by apply B2R_format.
  pose proof (above_1em9 _ G) as A. rewrite E1 in A. specialize (A H).
  destruct (f_of_Z_exact 1000000000) as [X1 X2]; [lia|]. fold f_1e9 in X1, X2.
  assert (U : B2R val - IZR (Ztrunc (B2R val)) < 1).
  { destruct (Rle_or_lt 0 (B2R val)) as [X|X].
    - rewrite Ztrunc_floor by auto. pose proof (Zfloor_ub (B2R val)). lra.
    - rewrite Ztrunc_ceil by lra. pose proof (Zceil_ub (B2R val)). lra. }
  split; [|split].
  - destruct (flt _ f_1em9) eqn:C; auto. apply flt_real in C; auto. rewrite E1 in C. lra.
  - destruct (feq _ f_zero) eqn:C; auto. apply feq_real in C; auto. rewrite E1, f_zero_real in C. lra.
  - destruct (fgt _ f_1e9) eqn:C; auto. apply fgt_real in C; auto. rewrite E1, X1 in C. lra.
Qed.

(** Any positive value whose fractional part is above 1e-9: the digit limits hold, and the
    result is either nothing (0/1) or near the value. *)
Lemma limits_positive : forall fuel val nn nd, (101 <= fuel)%nat ->
  f_is_finite val = true -> / IZR (10 ^ 9) < B2R val - IZR (Ztrunc (B2R val)) ->
  (0 <= nn <= 15)%Z -> (0 <= nd <= 15)%Z ->
  exists n d, decimal_to_fraction fuel val nn nd = Ok (n, d) /\
    (0 <= n < 10 ^ digit_limit nn)%Z /\ (1 <= d < 10 ^ digit_limit nd)%Z /\
    ((n, d) = (0, 1)%Z \/ Rabs (IZR n - B2R val * IZR d) <= 5 / 8).
Proof.
  intros fuel val nn nd HF F H Hn Hd. destruct (loop_reached val F H) as (L1 & L2 & L3).
  destruct (frac_start val F L1 L2) as (_ & _ & P).
  apply (fraction_main fuel val nn nd (fun n d => (n, d) = (0, 1)%Z \/ Rabs (IZR n - B2R val * IZR d) <= 5 / 8)); auto; try lia.
  intros N D BN BD E. right. apply near_good; auto; try lra; try lia.
  pose proof (lim_range nn Hn) as LR. pose proof (pow10_15 (lim nn)). lia.
Qed.

(** The digit limits hold for exactly these values: whole numbers that have the digits of the
    numerator, values whose part after the whole number is above 1e-9, and, as 1/1000000000 is
    returned for all others (the negative ones too), these when the denominator may have ten digits. *)
Theorem C33_limits : forall fuel val nn nd, (101 <= fuel)%nat -> f_is_finite val = true -> (0 <= nn <= 15)%Z -> (0 <= nd <= 15)%Z ->
  let frac := B2R val - IZR (Ztrunc (B2R val)) in
  exists n d, decimal_to_fraction fuel val nn nd = Ok (n, d) /\
    ((Z.abs n < 10 ^ digit_limit nn)%Z /\ (1 <= d < 10 ^ digit_limit nd)%Z <->
     (frac = 0 /\ Rabs (B2R val) < IZR (10 ^ digit_limit nn)) \/ / IZR (10 ^ 9) < frac \/ (frac <> 0 /\ frac <= / IZR (10 ^ 9) /\ (10 <= digit_limit nd)%Z)).
Proof.
  intros fuel val nn nd HF F Hn Hd frac. destruct (modf_frac val F) as [E1 E2]. fold frac in E1. destruct f_1em9_val as [V1 V2].
  assert (PN : 0 < / IZR (10 ^ 9)) by (apply Rinv_0_lt_compat; apply (IZR_lt 0); reflexivity).
  pose proof (lim_range nn Hn) as LRN. pose proof (lim_range nd Hd) as LRD. change (lim nn) with (digit_limit nn) in LRN. change (lim nd) with (digit_limit nd) in LRD.
  pose proof (pow10_15 (digit_limit nn) ltac:(lia)) as PTN. pose proof (pow10_15 (digit_limit nd) ltac:(lia)) as PTD.
  assert (T10 : forall k, (1 <= k)%Z -> (10 <= 10 ^ k)%Z) by (intros k Hk; change 10%Z with (10 ^ 1)%Z at 1; apply Z.pow_le_mono_r; lia).
  pose proof (T10 _ (proj1 LRN)) as TN. pose proof (T10 _ (proj1 LRD)) as TD.
  destruct (Rlt_or_le (/ IZR (10 ^ 9)) frac) as [HL|HL].
  - destruct (limits_positive fuel val nn nd HF F HL Hn Hd) as (n & d & E & N & D & _). exists n, d. split; [exact E|]. split; [auto|intros _]. lia.
  - destruct (Req_dec frac 0) as [Z0|Z0].
    + set (v := Ztrunc (B2R val)) in *. assert (EV : B2R val = IZR v) by (unfold frac in Z0; lra).
      assert (AB : Rabs (B2R val) < IZR (10 ^ digit_limit nn) <-> (Z.abs v < 10 ^ digit_limit nn)%Z) by (rewrite EV, <- abs_IZR; split; [apply lt_IZR|apply IZR_lt]).
      destruct (Z.lt_ge_cases (Z.abs v) (2 ^ 63)) as [B|B].
      * exists v, 1%Z. split; [apply C33_whole; auto|]. rewrite AB. split; [intros (A & _); auto|]. intros [(_ & A)|[A|(A & _)]]; [lia|lra|contradiction].
      * assert (X : exists n, decimal_to_fraction fuel val nn nd = Ok (n, 1%Z) /\ (Z.abs n = 2 ^ 63)%Z).
        { unfold decimal_to_fraction. destruct (f_modf val) as [ip fp]. cbn [snd] in *.
          assert (C : feq fp f_zero = true) by (apply feq_real; auto; rewrite f_zero_real, E1; exact Z0).
          destruct (flt val f_zero) eqn:S; cbv beta iota zeta; rewrite C.
          - apply flt_real in S; auto. rewrite f_zero_real, EV in S. apply (lt_IZR _ 0) in S.
            eexists. split; [reflexivity|]. destruct (Z.eq_dec v (- 2 ^ 63)) as [Q|Q].
            + rewrite (f_to_int64_out (fneg val)); [unfold two63; lia|rewrite fneg_finite; auto|rewrite fneg_real, EV, <- opp_IZR, Ztrunc_IZR; unfold two63; lia].
            + rewrite (f_to_int64_out (fneg val)); [unfold two63; lia|rewrite fneg_finite; auto|rewrite fneg_real, EV, <- opp_IZR, Ztrunc_IZR; unfold two63; lia].
          - apply flt_real_false in S; auto. rewrite f_zero_real, EV in S. apply (le_IZR 0) in S.
            eexists. split; [reflexivity|]. rewrite (f_to_int64_out val F); [unfold two63; lia|rewrite EV, Ztrunc_IZR; unfold two63; lia]. }
        destruct X as (n & E & AN). exists n, 1%Z. split; [exact E|]. assert (10 ^ 15 < 2 ^ 63)%Z by reflexivity. rewrite AB. split; [intros (A & _); lia|]. intros [(_ & A)|[A|(A & _)]]; [lia|lra|contradiction].
    + assert (X : exists n, decimal_to_fraction fuel val nn nd = Ok (n, 1000000000%Z) /\ (Z.abs n = 1)%Z).
      { unfold decimal_to_fraction. destruct (f_modf val) as [ip fp]. cbn [snd] in *.
        assert (C : feq fp f_zero = false) by (destruct (feq fp f_zero) eqn:C; auto; apply feq_real in C; auto; rewrite f_zero_real, E1 in C; contradiction).
        assert (C2 : flt fp f_1em9 = true).
        { apply flt_real; auto. rewrite E1, V1. apply Rle_lt_trans with (1 := HL). rewrite bpow_m82. assert (Z82 : IZR zbpow82 = 4835703278458516698824704) by reflexivity. rewrite Z82. change (IZR (10 ^ 9)) with 1000000000. lra. }
        destruct (flt val f_zero); cbv beta iota zeta; rewrite C, C2; eexists; (split; [reflexivity|]); reflexivity. }
      destruct X as (n & E & AN). exists n, 1000000000%Z. split; [exact E|].
      assert (TE : (10 <= digit_limit nd)%Z <-> (1000000000 < 10 ^ digit_limit nd)%Z).
      { split; intros H.
        - apply Z.lt_le_trans with (10 ^ 10)%Z; [reflexivity|]. apply Z.pow_le_mono_r; lia.
        - destruct (Z.le_gt_cases 10 (digit_limit nd)); auto. exfalso. assert (10 ^ digit_limit nd <= 10 ^ 9)%Z by (apply Z.pow_le_mono_r; lia). change (10 ^ 9)%Z with 1000000000%Z in *. lia. }
      rewrite TE. split; [intros (_ & A); right; right; split; [exact Z0|split; [exact HL|lia]]|]. intros [(A & _)|[A|(_ & _ & A)]]; [contradiction|lra|lia].
Qed.
(** and then the result is near the value, i.e. the numerator is the nearest one up to the rounding of the product, or 0/1, for values above 1 only *)
Theorem C33_near : forall fuel val nn nd, (101 <= fuel)%nat ->
  f_is_finite val = true -> / IZR (10 ^ 9) < B2R val - IZR (Ztrunc (B2R val)) ->
  (0 <= nn <= 15)%Z -> (0 <= nd <= 15)%Z ->
  exists n d, decimal_to_fraction fuel val nn nd = Ok (n, d) /\
    (0 <= n < 10 ^ digit_limit nn)%Z /\ (1 <= d < 10 ^ digit_limit nd)%Z /\
    ((1 < B2R val /\ (n, d) = (0, 1)%Z) \/ Rabs (B2R val - IZR n / IZR d) <= 5 / 8 / IZR d).
Proof.
  intros fuel val nn nd HF F H Hn Hd.
  assert (P0 : 0 < B2R val).
  { destruct (Rlt_or_le 0 (B2R val)) as [|N]; auto. exfalso. rewrite Ztrunc_ceil in H by lra. pose proof (Zceil_ub (B2R val)). assert (0 < / IZR (10 ^ 9)) by (apply Rinv_0_lt_compat; apply (IZR_lt 0); reflexivity). lra. }
  destruct (Rlt_or_le (B2R val) 1) as [L|L].
  - destruct (limits_below_1 fuel val nn nd HF F) as (n & d & E & N & D & A); auto; [split; [rewrite trunc_small in H by lra; lra|exact L]|]. exists n, d. auto.
  - destruct (limits_positive fuel val nn nd HF F H Hn Hd) as (n & d & E & N & D & A). exists n, d. split; [exact E|]. split; [exact N|]. split; [exact D|].
    destruct A as [A|A].
    + left. split; [|exact A]. destruct L as [L|L]; auto. exfalso. rewrite <- L, (Ztrunc_IZR 1) in H. assert (0 < / IZR (10 ^ 9)) by (apply Rinv_0_lt_compat; apply (IZR_lt 0); reflexivity). lra.
    + right. assert (1 <= IZR d) by (apply (IZR_le 1); apply D).
      replace (B2R val - IZR n / IZR d) with (- (IZR n - B2R val * IZR d) / IZR d) by (field; lra).
      unfold Rdiv at 1. rewrite Rabs_mult, Rabs_Ropp, Rabs_inv, (Rabs_pos_eq (IZR d)) by lra.
      apply Rmult_le_compat_r; [|exact A]. apply Rlt_le, Rinv_0_lt_compat. lra.
Qed.
(** Violated for values above the limit of the numerator: they are shown as nothing at all,
    although no fraction is needed to show their whole part. *)
Theorem C33_improper_refuted : forall fuel val nn nd, f_is_finite val = true -> (0 <= nn <= 15)%Z -> (0 <= nd <= 15)%Z ->
  / IZR (10 ^ 9) < B2R val - IZR (Ztrunc (B2R val)) -> IZR (10 ^ digit_limit nn) <= B2R val ->
  decimal_to_fraction (S fuel) val nn nd = Ok (0, 1)%Z.
Proof.
  intros fuel val nn nd F Hn Hd H HV. destruct (loop_reached val F H) as (L1 & L2 & L3).
  destruct (frac_start val F L1 L2) as (S1 & FO & PV). pose proof (lim_range nn Hn) as LR.
  assert (NI : B2R val <> IZR (Zfloor (B2R val))).
  { intros Q. rewrite Ztrunc_floor, <- Q in H by lra. assert (0 < / IZR (10 ^ 9)) by (apply Rinv_0_lt_compat; apply (IZR_lt 0); reflexivity). lra. }
  unfold decimal_to_fraction. change (if (nn =? 0)%Z then 2%Z else nn) with (digit_limit nn). rewrite S1.
  destruct (f_modf val) as [ip fp]. cbn [snd] in *. rewrite L1, L2, L3. cbn [frac_loop].
  assert (C1 : fgt f_one f_1em10 = true) by (vm_compute; reflexivity). rewrite C1.
  assert (C2 : feq val (f_floor val) = false).
  { destruct (feq val (f_floor val)) eqn:C; auto. apply feq_floor in C; auto. contradiction. }
  rewrite C2. cbn [negb andb].
  destruct (znext_ok val FO NI) as (_ & _ & _ & Fz1 & Bz1 & Hz1). unfold znext in *.
  set (z1 := fdiv f_one (fsub val (f_floor val))) in *. destruct f_one_real as [O1 O2].
  destruct (dnext_ok z1 f_one f_zero 1 0 Fz1 O2 eq_refl Bz1) as (Fd1 & F1 & Bd1 & _); auto; try lia.
  set (d1 := fadd (fmul f_one (f_floor z1)) f_zero) in *.
  assert (Bv1 : B2R val <= B2R val * B2R d1 <= bpow radix2 180).
  { split; [nra|]. change 180%Z with (60 + 120)%Z. rewrite bpow_plus. apply Rmult_le_compat; lra. }
  assert (BB : bpow radix2 180 <= bpow radix2 1023) by (apply bpow_le; lia).
  destruct (fmul_correct val d1) as [E1 E2]; auto. { rewrite Rabs_pos_eq; lra. }
  assert (LR2 : (1 <= digit_limit nn <= 15)%Z) by exact LR. pose proof (pow10_15 (digit_limit nn)) as PT.
  destruct (f_of_Z_exact (10 ^ digit_limit nn)) as [X1 X2]. { assert (10 ^ 15 < 2 ^ 53)%Z by reflexivity. lia. }
  assert (C3 : fge (f_round (fmul val d1)) (f_of_Z (10 ^ digit_limit nn)) = true).
  { apply fge_real; auto. { rewrite f_round_finite; auto. } rewrite X1, f_round_real, E1. apply Rle_ge, IZR_le.
    rewrite <- (Zrnd_IZR ZnearestA (10 ^ digit_limit nn)). apply Zrnd_le; [typeclasses eauto|].
    rewrite <- (RN_Z (10 ^ digit_limit nn)). 2:{ assert (10 ^ 15 < 2 ^ 53)%Z by reflexivity. lia. }
    apply RN_le. lra. }
  cbv zeta. fold z1. fold d1. rewrite C3. cbn [orb]. reflexivity.
Qed.

(** What the fraction formats # ?/? (12, 69) and # ??/?? (13, 70) show: the whole part alone when
    there is no fraction, or none within the digit limits; otherwise whole part, numerator and
    denominator, with the sign on the numerator when the whole part is 0 and not shown. *)
Definition fraction_formats : list (Z * Z) := [(12, 1); (69, 1); (13, 2); (70, 2)]%Z.
Definition shows_fraction (w : Z) (neg : bool) (n d : Z) (t : gostr) : Prop :=
  (n = 0%Z -> numeral w t) /\
  (n <> 0%Z -> exists b c, numeral (if (w =? 0)%Z && neg then - n else n)%Z b /\ numeral d c /\
     (w = 0%Z -> t = b ++ bs "/" ++ c) /\
     (w <> 0%Z -> exists a, numeral w a /\ t = a ++ bs " " ++ b ++ bs "/" ++ c)).

Theorem C33_text : forall x id k val, In (id, k) fraction_formats ->
  f_is_finite val = true -> Rabs (B2R val) < IZR (2 ^ 60) ->
  let w := Ztrunc (B2R val) in
  let part := Rabs (B2R val - IZR w) in
  exists t, fx_apply x id (GF64 val) = Ok (t, true) /\
    (part = 0 -> numeral w t) /\
    (/ IZR (10 ^ 9) < part -> exists n d, (0 <= n < 10 ^ k)%Z /\ (1 <= d < 10 ^ k)%Z /\
       Z.gcd n d = 1%Z /\ Rabs (part - IZR n / IZR d) <= / (IZR d * IZR (10 ^ k)) + / IZR (10 ^ 9) /\ shows_fraction w (Rlt_bool (B2R val) 0) n d t).
Proof.
  intros x id k val Hid F HB w part.
  assert (K : zfind id go_formatters = Some (FFrac k) /\ (k = 1 \/ k = 2)%Z).
  { cbv [fraction_formats In] in Hid.
    repeat (destruct Hid as [Hid|Hid]; [injection Hid as <- <-; split; [reflexivity|auto]|]). destruct Hid. }
  destruct K as [K1 K2].
  destruct (C33_whole_fraction frac_fuel val k k) as (n & d & E & H0 & H1); auto; try lia.
  { unfold frac_fuel. lia. }
  fold w in E, H0, H1. fold part in H0, H1.
  unfold fx_apply. rewrite K1. cbn [ff_eval]. unfold frac_text. cbn [to_f64]. rewrite E. cbn [bind].
  assert (DL : digit_limit k = k) by (unfold digit_limit; destruct K2; subst k; reflexivity).
  rewrite DL in H1. rewrite Z.min_id in H1.
  assert (K3 : (k <= 3)%Z) by lia.
  assert (NEG : flt val f_zero = Rlt_bool (B2R val) 0).
  { destruct (flt val f_zero) eqn:Q.
    - apply flt_real in Q; auto. rewrite f_zero_real in Q. rewrite Rlt_bool_true; auto.
    - apply flt_real_false in Q; auto. rewrite f_zero_real in Q. rewrite Rlt_bool_false; auto. }
  destruct (Z.eqb_spec n 0) as [N0|N0].
  - eexists. split; [reflexivity|]. split; [intros _; apply itoa_numeral|].
    intros HP. destruct (H1 HP) as (A & B & _ & C). destruct (C K3) as (G & C1). exists n, d. split; auto. split; auto. split; auto. split; auto.
    split; [intros _; apply itoa_numeral|]. intros; contradiction.
  - destruct (Z.eqb_spec w 0) as [W0|W0].
    + eexists. split; [reflexivity|]. split; [intros HP; destruct (H0 HP); contradiction|].
      intros HP. destruct (H1 HP) as (A & B & _ & C). destruct (C K3) as (G & C1). exists n, d. split; auto. split; auto. split; auto. split; auto.
      split; [intros; contradiction|]. intros _.
      exists (itoa (if flt val f_zero && (0 <? n)%Z then - n else n)%Z), (itoa d).
      split; [|split; [apply itoa_numeral|split; [intros _; reflexivity|intros; contradiction]]].
      rewrite NEG. rewrite W0. change (0 =? 0)%Z with true.
      assert (0 <? n = true)%Z as -> by lia. rewrite andb_true_r. cbn [andb]. apply itoa_numeral.
    + eexists. split; [reflexivity|]. split; [intros HP; destruct (H0 HP); contradiction|].
      intros HP. destruct (H1 HP) as (A & B & _ & C). destruct (C K3) as (G & C1). exists n, d. split; auto. split; auto. split; auto. split; auto.
      split; [intros; contradiction|]. intros _. exists (itoa n), (itoa d).
      assert ((w =? 0)%Z = false) as -> by lia. cbn [andb].
      split; [apply itoa_numeral|]. split; [apply itoa_numeral|]. split; [intros; contradiction|].
      intros _. exists (itoa w). split; [apply itoa_numeral|]. reflexivity.
Qed.

(** So a fraction that has the digits is shown as it is: if the part after the whole number is p/q in
    lowest terms with q of at most k digits (up to 1e-10, which covers the rounding of the value
    to a float64 up to a whole part of 400000), then p/q is shown. *)
Theorem C33_exact : forall x id k val p q, In (id, k) fraction_formats ->
  f_is_finite val = true -> Rabs (B2R val) < IZR (2 ^ 60) ->
  let w := Ztrunc (B2R val) in
  (0 < p < q)%Z -> (q < 10 ^ k)%Z -> Z.gcd p q = 1%Z -> Rabs (Rabs (B2R val - IZR w) - IZR p / IZR q) <= / IZR (10 ^ 10) ->
  exists t, fx_apply x id (GF64 val) = Ok (t, true) /\ shows_fraction w (Rlt_bool (B2R val) 0) p q t.
Proof.
  intros x id k val p q Hid F HB w Hp Hq G A.
  assert (K2 : (k = 1 \/ k = 2)%Z) by (cbv [fraction_formats In] in Hid; intuition congruence).
  destruct (C33_text x id k val Hid F HB) as (t & E & _ & H). cbv zeta in H. fold w in H. set (part := Rabs (B2R val - IZR w)) in *.
  assert (KK : (10 ^ k <= 100)%Z) by (destruct K2; subst k; vm_compute; discriminate). assert (K0 : (0 < 10 ^ k)%Z) by lia.
  assert (RP : 1 <= IZR p) by (apply (IZR_le 1); lia). assert (RQ : 1 <= IZR q <= IZR (10 ^ k) - 1) by (split; [apply (IZR_le 1); lia|rewrite <- minus_IZR; apply IZR_le; lia]).
  assert (RK : IZR (10 ^ k) <= 100) by (apply IZR_le; lia). apply Rabs_le_inv in A. change (IZR (10 ^ 10)) with 10000000000 in A.
  assert (PQ : / 100 <= IZR p / IZR q). { apply Rle_trans with (/ IZR q); [apply Rinv_le; lra|]. unfold Rdiv. rewrite <- (Rmult_1_l (/ IZR q)) at 1. apply Rmult_le_compat_r; [apply Rlt_le, Rinv_0_lt_compat|]; lra. }
  destruct H as (n & d & N & D & GN & C & S). { change (IZR (10 ^ 9)) with 1000000000. lra. }
  exists t. split; [exact E|]. assert (RD : 1 <= IZR d <= 100) by (split; [apply (IZR_le 1); lia|apply IZR_le; lia]).
  apply Rabs_le_inv in C. change (IZR (10 ^ 9)) with 1000000000 in C.
  assert (EQ : (n * q = p * d)%Z).
  { destruct (Z.eq_dec (n * q) (p * d)) as [Q|Q]; auto. exfalso.
    assert (Q1 : 1 <= Rabs (IZR n * IZR q - IZR p * IZR d)) by (rewrite <- !mult_IZR, <- minus_IZR, <- abs_IZR; apply IZR_le; lia).
    assert (DQ : 0 < IZR d * IZR q) by nra.
    assert (FE : IZR n * IZR q - IZR p * IZR d = (IZR n / IZR d - IZR p / IZR q) * (IZR d * IZR q)) by (field; lra).
    rewrite FE, Rabs_mult, (Rabs_pos_eq (IZR d * IZR q)) in Q1 by lra.
    set (T := IZR (10 ^ k)) in *.
    assert (B : Rabs (IZR n / IZR d - IZR p / IZR q) <= / (IZR d * T) + / 900000000) by (apply Rabs_le; lra).
    apply (Rmult_le_compat_r (IZR d * IZR q)) in B; [|lra].
    assert (B2 : / (IZR d * T) * (IZR d * IZR q) = 1 - (T - IZR q) * / T) by (field; lra).
    assert (B3 : / 100 <= (T - IZR q) * / T). { apply Rle_trans with (1 * / T); [rewrite Rmult_1_l; apply Rinv_le; lra|]. apply Rmult_le_compat_r; [apply Rlt_le, Rinv_0_lt_compat; lra|lra]. }
    assert (B4 : IZR d * IZR q <= 10000) by nra. lra. }
  assert (n = p /\ d = q)%Z as (-> & ->); [|exact S].
  assert (DQ : (d | q)%Z) by (apply (Z.gauss d n q); [exists p; lia|rewrite Z.gcd_comm; exact GN]).
  assert (QD : (q | d)%Z) by (apply (Z.gauss q p d); [exists n; lia|rewrite Z.gcd_comm; exact G]).
  assert (d = q) by (apply Z.divide_antisym_nonneg; auto; lia). subst d. split; [nia|reflexivity].
Qed.

(** Refuted: a fraction nearer to 1 than to any other allowed fraction is shown as 1/1 instead of
    being carried to the whole part. *)
Definition f_299 : f64 := @B754_finite 53 1024 false 6732881442918892 (-51) eq_refl.     (* 2.99 *)
Theorem C33_carry_refuted : f_is_finite f_299 = true /\ 299 / 100 - / 1000000 < B2R f_299 < 299 / 100 + / 1000000 /\
  forall x, fx_apply x 12 (GF64 f_299) = Ok (bs "2 1/1", true).
Proof.
  split; [reflexivity|]. split.
  - unfold f_299, B2R, F2R, Fnum, Fexp, cond_Zopp. change (bpow radix2 (-51)) with (/ IZR 2251799813685248). split; lra.
  - intros x. unfold fx_apply. change (zfind 12 go_formatters) with (Some (FFrac 1)). cbn [ff_eval].
    assert (E : frac_text 1 (GF64 f_299) = Ok (bs "2 1/1")) by (vm_compute; reflexivity).
    rewrite E. reflexivity.
Qed.

Print Assumptions C33_terminates.
Print Assumptions C33_whole_fraction.
Print Assumptions C33_negative_refuted.
Print Assumptions C33_text.
Print Assumptions C33_close.
Print Assumptions C33_exact.
Print Assumptions C33_carry_refuted.
Print Assumptions C33_whole.
Print Assumptions C33_limits.
Print Assumptions C33_near.
Print Assumptions C33_improper_refuted.

(** concrete cases: pi - 3 with two digits is 1/7; 0.75 = 3/4; 2.5 = 2 1/2; the loop rejects *)
Example C33_ex_third :
  match decimal_to_fraction 101 (f_of_dec false 333 (-3)) 1 1 with
  | Ok (n, d) => ((n =? 1) && (d =? 3))%Z | _ => false end = true.
Proof. vm_compute. reflexivity. Qed.
Example C33_ex_pi :
  match decimal_to_fraction 101 (f_of_dec false 14159265 (-8)) 3 3 with
  | Ok (n, d) => ((n =? 16) && (d =? 113))%Z | _ => false end = true.
Proof. vm_compute. reflexivity. Qed.
Example C33_ex_whole :
  match decimal_to_whole_fraction 101 (f_of_dec true 275 (-2)) 0 0 with
  | Ok (w, n, d) => ((w =? -2) && (n =? 3) && (d =? 4))%Z | _ => false end = true.
Proof. vm_compute. reflexivity. Qed.
Example C33_ex_neg :
  match decimal_to_fraction 101 (f_of_dec true 5 (-1)) 1 1 with
  | Ok (n, d) => ((n =? -1) && (d =? 1000000000))%Z | _ => false end = true.
Proof. vm_compute. reflexivity. Qed.
Example C33_ex_text : fx_apply new_formatter 13 (GF64 (f_of_dec true 275 (-2))) = Ok (bs "-2 3/4", true).
Proof. vm_compute. reflexivity. Qed.
Example C33_ex_improper :
  match decimal_to_fraction 101 (f_of_dec false 12345 (-1)) 2 2, decimal_to_fraction 101 (f_of_dec false 25 (-1)) 2 2, decimal_to_fraction 101 (f_of_Z (-7)) 1 1 with
  | Ok (n, d), Ok (n2, d2), Ok (n3, d3) => ((n =? 0) && (d =? 1) && (n2 =? 5) && (d2 =? 2) && (n3 =? -7) && (d3 =? 1))%Z | _, _, _ => false end = true.
Proof. vm_compute. reflexivity. Qed.
(** 1234.375 = 1234 3/8 under both formats; the value nearest to 5 17/99 *)
Example C33_ex_exact : fx_apply new_formatter 12 (GF64 (f_of_dec false 1234375 (-3))) = Ok (bs "1234 3/8", true) /\
  fx_apply new_formatter 70 (GF64 (fadd (f_of_Z 5) (fdiv (f_of_Z 17) (f_of_Z 99)))) = Ok (bs "5 17/99", true).
Proof. split; vm_compute; reflexivity. Qed.

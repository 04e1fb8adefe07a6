(** * L_round: the float64 computed from a decimal numeral is the nearest one

    [f_of_ratio] keeps enough quotient bits and one sticky bit and rounds once; this file
    shows that the single rounding of that truncated quotient is the rounding of the exact
    quotient (rounding to odd first, then to nearest). *)
From Verif Require Import GoBase GoFloat L_float.
From Coq Require Import Reals Lra Psatz.
From Flocq Require Import Core IEEE754.BinarySingleNaN Round_odd.
Open Scope R_scope.

Definition oddexp (e0 k : Z) : Z := Z.min e0 (Z.max (k - 55) (-1076)).

Lemma oddexp_valid : forall e0, Valid_exp (oddexp e0).
Proof. intros e0 k. unfold oddexp. split; [intros; lia|]. intros H. split; [lia|intros; lia]. Qed.

Lemma oddexp_NE : forall e0, Exists_NE radix2 (oddexp e0).
Proof. intros e0. right. intros k. unfold oddexp. split; intros; lia. Qed.

Global Instance fexp64_NE : Exists_NE radix2 fexp64.
Proof. right. intros k. unfold SpecFloat.fexp, SpecFloat.emin. split; intros; lia. Qed.

(** rounding a quotient to odd keeps it on the same side of everything coarser *)
Lemma RN_sticky : forall num den s, (0 < num)%Z -> (0 < den)%Z -> (0 <= s)%Z ->
  (Z.log2 den - Z.log2 num + 60 <= s)%Z ->
  RN (F2R (Float radix2 (2 * (num * 2 ^ s / den) + (if (num * 2 ^ s) mod den =? 0 then 0 else 1)%Z) (- (s + 1)))) = RN (IZR num / IZR den).
Proof.
  intros num den s Hn Hd Hs Hl. set (x := IZR num / IZR den). set (e0 := (- (s + 1))%Z).
  assert (Pn : 0 < IZR num) by (apply IZR_lt; lia). assert (Pd : 0 < IZR den) by (apply IZR_lt; lia).
  assert (Px : 0 < x) by (apply Rdiv_lt_0_compat; auto).
  assert (MAG : (Z.log2 num - Z.log2 den <= mag radix2 x)%Z).
  { apply mag_ge_bpow. rewrite Rabs_pos_eq by lra.
    pose proof (Z.log2_spec num Hn) as [L1 _]. pose proof (Z.log2_spec den Hd) as [_ L2].
    pose proof (Z.log2_nonneg num) as G1. pose proof (Z.log2_nonneg den) as G2.
    replace (Z.log2 num - Z.log2 den - 1)%Z with (Z.log2 num - Z.succ (Z.log2 den))%Z by lia.
    unfold Zminus. rewrite bpow_plus, bpow_opp. unfold x, Rdiv.
    rewrite <- (IZR_Zpower radix2) by lia. rewrite <- (IZR_Zpower radix2) by lia.
    change (radix_val radix2) with 2%Z.
    apply IZR_le in L1. apply IZR_lt in L2.
    assert (0 < IZR (2 ^ Z.succ (Z.log2 den))) by (apply IZR_lt; apply Z.pow_pos_nonneg; lia).
    assert (0 < IZR (2 ^ Z.log2 num)) by (apply IZR_lt; apply Z.pow_pos_nonneg; lia).
    apply Rmult_le_compat; try lra.
    - left. apply Rinv_0_lt_compat. auto.
    - apply Rinv_le; lra. }
  pose proof (oddexp_valid e0) as V0. pose proof (oddexp_NE e0) as E0.
  rewrite <- (round_N_odd radix2 eq_refl fexp64 (oddexp e0) (fun x => negb (Z.even x))) with (x := x).
  2: { intros k. unfold oddexp, SpecFloat.fexp, SpecFloat.emin. lia. }
  apply (f_equal RN). unfold round, scaled_mantissa, cexp.
  assert (CE : oddexp e0 (mag radix2 x) = e0). { unfold oddexp, e0. lia. }
  rewrite CE. apply (f_equal (fun z => F2R (Float radix2 z e0))).
  set (N := (num * 2 ^ s)%Z). set (q := (N / den)%Z). set (r := (N mod den)%Z).
  pose proof (Z.div_mod N den ltac:(lia)) as DM. fold q r in DM. pose proof (Z.mod_pos_bound N den Hd) as RB. fold r in RB.
  assert (SC : x * bpow radix2 (- e0) = 2 * IZR N / IZR den).
  { unfold x, e0. replace (- - (s + 1))%Z with (s + 1)%Z by lia. rewrite <- (IZR_Zpower radix2) by lia.
    change (radix_val radix2) with 2%Z. rewrite Z.pow_add_r by lia. change (2 ^ 1)%Z with 2%Z. unfold N. rewrite !mult_IZR. field. lra. }
  rewrite SC. set (y := 2 * IZR N / IZR den).
  assert (Y : y = IZR (2 * q) + 2 * IZR r / IZR den).
  { unfold y. rewrite DM, plus_IZR, !mult_IZR. field. lra. }
  assert (RB' : 0 <= IZR r < IZR den) by (split; [apply IZR_le; lia|apply IZR_lt; lia]).
  assert (Fr : 0 <= 2 * IZR r / IZR den < 2).
  { split. - apply Rmult_le_pos; [lra|]. left; apply Rinv_0_lt_compat; lra.
    - apply (Rmult_lt_reg_r (IZR den)); auto. unfold Rdiv. rewrite Rmult_assoc, Rinv_l by lra. lra. }
  unfold Zrnd_odd. destruct (Z.eqb_spec r 0) as [R0|R0].
  - assert (Y0 : y = IZR (2 * q)). { rewrite Y, R0. unfold Rdiv. lra. }
    rewrite Y0, Zfloor_IZR. destruct (Req_EM_T _ _); [lia|congruence].
  - assert (0 < IZR r) by (apply IZR_lt; lia).
    assert (F0 : 0 < 2 * IZR r / IZR den) by (apply Rmult_lt_0_compat; [lra|]; apply Rinv_0_lt_compat; lra).
    destruct (Rlt_le_dec (2 * IZR r / IZR den) 1) as [L|L].
    + assert (FL : Zfloor y = (2 * q)%Z). { apply Zfloor_imp. rewrite plus_IZR, Y. lra. }
      rewrite FL. destruct (Req_EM_T _ _) as [E|_]; [lra|].
      rewrite Z.even_mul. cbn [Z.even orb]. rewrite Zceil_floor_neq; rewrite FL; [reflexivity|]. lra.
    + assert (FL : Zfloor y = (2 * q + 1)%Z). { apply Zfloor_imp. rewrite !plus_IZR, Y. lra. }
      rewrite FL. destruct (Req_EM_T _ _) as [E|_]; [reflexivity|].
      replace (Z.even (2 * q + 1)) with false; [reflexivity|]. rewrite Z.even_add, Z.even_mul. reflexivity.
Qed.

(** the outcome of one rounding, whatever the size *)
Definition rounds_to (a : f64) (x : R) : Prop :=
  if Rlt_bool (Rabs (RN x)) (bpow radix2 1024)
  then f_is_finite a = true /\ B2R a = RN x
  else a = f_inf (Rlt_bool x 0).

Lemma f_norm_rounds : forall m e, rounds_to (f_norm m e) (F2R (Float radix2 m e)).
Proof.
  intros m e. unfold rounds_to, f_norm, f_is_finite.
  pose proof (binary_normalize_correct 53 1024 prec53 prec_emax mode_NE m e false) as Hc.
  cbv zeta in Hc. simpl round_mode in Hc.
  destruct (Rlt_bool (Rabs (RN (F2R (Float radix2 m e)))) (bpow radix2 1024)).
  - destruct Hc as (H1 & H2 & _). auto.
  - apply B2SF_inj. rewrite Hc. destruct (Rlt_bool _ 0); reflexivity.
Qed.

Lemma f_of_ratio_rounds : forall num den, (0 <= num)%Z -> (0 < den)%Z ->
  rounds_to (f_of_ratio num den) (IZR num / IZR den).
Proof.
  intros num den Hn Hd. unfold f_of_ratio. cbv zeta. set (s := Z.max 0 (Z.log2 den - Z.log2 num + 60)).
  rewrite Z.shiftl_mul_pow2 by lia. pose proof (f_norm_rounds (2 * (num * 2 ^ s / den) + (if (num * 2 ^ s) mod den =? 0 then 0 else 1)%Z) (- (s + 1))) as R.
  assert (0 < IZR den) by (apply IZR_lt; lia).
  destruct (Z.eq_dec num 0) as [->|N0].
  - rewrite Z.mul_0_l, Z.div_0_l, Z.mod_0_l in * by lia. cbn [Z.eqb] in *. change (2 * 0 + 0)%Z with 0%Z in *. rewrite F2R_0 in R. unfold Rdiv. rewrite Rmult_0_l. exact R.
  - unfold rounds_to in *. rewrite (RN_sticky num den s) in R by lia.
    destruct (Rlt_bool (Rabs _) _); [exact R|]. rewrite R. f_equal.
    rewrite !Rlt_bool_false; auto.
    + apply Rmult_le_pos; [apply IZR_le; lia|left; apply Rinv_0_lt_compat; auto].
    + apply F2R_ge_0. cbn [Fnum]. assert (0 <= num * 2 ^ s / den)%Z by (apply Z.div_pos; [apply Z.mul_nonneg_nonneg; [lia|apply Z.pow_nonneg; lia]|lia]).
      destruct (_ =? 0)%Z; lia.
Qed.

(** m * 10^e as a real number *)
Definition ten_pow (e : Z) : R := if (0 <=? e)%Z then IZR (10 ^ e) else / IZR (10 ^ (- e)).
Definition dec_real (neg : bool) (m e : Z) : R := (if neg then -1 else 1) * (IZR m * ten_pow e).

Lemma f_of_dec_rounds : forall neg m e, (0 <= m)%Z -> rounds_to (f_of_dec neg m e) (dec_real neg m e).
Proof.
  intros neg m e Hm. unfold f_of_dec, dec_real, ten_pow. cbv zeta.
  set (a := if (0 <=? e)%Z then f_norm (m * 10 ^ e) 0 else f_of_ratio m (10 ^ (- e))).
  set (x := IZR m * (if (0 <=? e)%Z then IZR (10 ^ e) else / IZR (10 ^ (- e)))).
  assert (R : rounds_to a x /\ 0 <= x).
  { unfold a, x. destruct (Z.leb_spec 0 e).
    - split; [|apply Rmult_le_pos; apply IZR_le; [lia|apply Z.pow_nonneg; lia]].
      pose proof (f_norm_rounds (m * 10 ^ e) 0) as R. rewrite <- mult_IZR. replace (F2R (Float radix2 (m * 10 ^ e) 0)) with (IZR (m * 10 ^ e)) in R by (unfold F2R; simpl; lra). exact R.
    - assert (0 < 10 ^ (- e))%Z by (apply Z.pow_pos_nonneg; lia).
      split; [apply f_of_ratio_rounds; auto|]. apply Rmult_le_pos; [apply IZR_le; lia|left; apply Rinv_0_lt_compat; apply IZR_lt; auto]. }
  destruct R as [R X]. destruct neg.
  - replace (-1 * x) with (- x) by lra. unfold rounds_to in *. rewrite round_NE_opp, Rabs_Ropp.
    destruct (Rlt_bool_spec (Rabs (RN x)) (bpow radix2 1024)) as [L|L].
    + destruct R as [F V]. unfold fneg, f_is_finite in *. rewrite is_finite_Bopp, B2R_Bopp. split; [exact F|lra].
    + assert (x <> 0). { intros E0. rewrite E0, round_0 in L by typeclasses eauto. rewrite Rabs_R0 in L. pose proof (bpow_gt_0 radix2 1024). lra. }
      rewrite R, (Rlt_bool_false x 0), (Rlt_bool_true (- x) 0) by lra. reflexivity.
  - rewrite Rmult_1_l. exact R.
Qed.

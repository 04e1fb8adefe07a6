(** * L_float: facts about GoFloat (real-number semantics through Flocq). *)
From Verif Require Import GoBase GoFloat.
From Coq Require Import Reals Lra Psatz.
From Flocq Require Import Core IEEE754.BinarySingleNaN.
Open Scope R_scope.

Notation B2R := (BinarySingleNaN.B2R (prec:=53) (emax:=1024)).
Notation fexp64 := (SpecFloat.fexp 53 1024).
Notation RN := (round radix2 fexp64 ZnearestE).

Global Instance fexp64_valid : Valid_exp fexp64.
Proof. apply (BinarySingleNaN.fexp_correct 53 1024). reflexivity. Qed.
Global Instance fexp64_monotone : Monotone_exp fexp64.
Proof. apply (BinarySingleNaN.fexp_monotone 53 1024). Qed.

Lemma fexp64_FLT : forall e, fexp64 e = FLT_exp (-1074) 53 e.
Proof. reflexivity. Qed.

Lemma format_FLT : forall x, generic_format radix2 (FLT_exp (-1074) 53) x -> generic_format radix2 fexp64 x.
Proof. auto. Qed.

(** integers of at most 53 bits times a power of two in range are floats *)
Lemma format_F2R : forall m e, (Z.abs m < 2 ^ 53)%Z -> (-1074 <= e)%Z ->
  generic_format radix2 fexp64 (F2R (Float radix2 m e)).
Proof.
  intros m e Hm He. apply format_FLT. apply generic_format_FLT.
  exists (Float radix2 m e); auto.
Qed.

Lemma format_Z : forall m, (Z.abs m <= 2 ^ 53)%Z -> generic_format radix2 fexp64 (IZR m).
Proof.
  intros m Hm. destruct (Z.eq_dec (Z.abs m) (2 ^ 53)) as [E|E].
  - assert (IZR m = F2R (Float radix2 (m / 2) 1)).
    { unfold F2R; simpl. change (IZR (Z.pow_pos 2 1)) with 2.
      assert (m = (m / 2) * 2)%Z by (destruct (Z.abs_spec m) as [[_ H]|[_ H]]; rewrite H in E;
          [subst m; reflexivity | assert (m = - 2^53)%Z by lia; subst m; reflexivity]).
      rewrite H at 1. rewrite mult_IZR. reflexivity. }
    rewrite H. apply format_F2R; [|lia].
    destruct (Z.abs_spec m) as [[_ H1]|[_ H1]]; rewrite H1 in E;
      [subst m; reflexivity | assert (m = - 2^53)%Z by lia; subst m; reflexivity].
  - replace (IZR m) with (F2R (Float radix2 m 0)) by (unfold F2R; simpl; lra).
    apply format_F2R; lia.
Qed.

Lemma RN_Z : forall m, (Z.abs m <= 2 ^ 53)%Z -> RN (IZR m) = IZR m.
Proof. intros. apply round_generic; [typeclasses eauto|]. apply format_Z; auto. Qed.

Lemma bpow_emax_big : forall x, Rabs x <= bpow radix2 1023 -> Rabs (RN x) < bpow radix2 1024.
Proof.
  intros x H. apply Rle_lt_trans with (bpow radix2 1023).
  - apply abs_round_le_generic; auto; try typeclasses eauto.
    apply generic_format_bpow. unfold fexp64, SpecFloat.fexp, SpecFloat.emin. lia.
  - apply bpow_lt. lia.
Qed.

Lemma f_norm_correct : forall m e, Rabs (F2R (Float radix2 m e)) <= bpow radix2 1023 ->
  B2R (f_norm m e) = RN (F2R (Float radix2 m e)) /\ f_is_finite (f_norm m e) = true.
Proof.
  intros m e H. unfold f_norm, f_is_finite.
  pose proof (binary_normalize_correct 53 1024 prec53 prec_emax mode_NE m e false) as Hc.
  cbv zeta in Hc. simpl round_mode in Hc.
  rewrite Rlt_bool_true in Hc.
  - destruct Hc as (H1 & H2 & _). auto.
  - apply bpow_emax_big; auto.
Qed.

Lemma f_of_Z_round : forall z, (Z.abs z <= 2 ^ 1023)%Z ->
  B2R (f_of_Z z) = RN (IZR z) /\ f_is_finite (f_of_Z z) = true.
Proof.
  intros z Hz. unfold f_of_Z.
  assert (E : F2R (Float radix2 z 0) = IZR z) by (unfold F2R; simpl; lra).
  rewrite <- E. apply f_norm_correct. rewrite E, <- abs_IZR.
  change (bpow radix2 1023) with (IZR (Z.pow_pos 2 1023)). apply IZR_le. exact Hz.
Qed.

Lemma f_of_Z_exact : forall z, (Z.abs z <= 2 ^ 53)%Z ->
  B2R (f_of_Z z) = IZR z /\ f_is_finite (f_of_Z z) = true.
Proof.
  intros z Hz. destruct (f_of_Z_round z) as [H1 H2].
  - apply Z.le_trans with (2 ^ 53)%Z; auto. apply Z.pow_le_mono_r; lia.
  - rewrite H1, RN_Z; auto.
Qed.

Lemma fcmp_real : forall a b, f_is_finite a = true -> f_is_finite b = true ->
  fcmp a b = Some (Rcompare (B2R a) (B2R b)).
Proof. intros. apply Bcompare_correct; auto. Qed.

Lemma flt_real : forall a b, f_is_finite a = true -> f_is_finite b = true ->
  flt a b = true <-> B2R a < B2R b.
Proof.
  intros. unfold flt. rewrite fcmp_real by auto.
  destruct (Rcompare_spec (B2R a) (B2R b)); split; intros; auto; try discriminate; lra.
Qed.

Lemma fgt_real : forall a b, f_is_finite a = true -> f_is_finite b = true ->
  fgt a b = true <-> B2R a > B2R b.
Proof.
  intros. unfold fgt. rewrite fcmp_real by auto.
  destruct (Rcompare_spec (B2R a) (B2R b)); split; intros; auto; try discriminate; lra.
Qed.

Lemma feq_real : forall a b, f_is_finite a = true -> f_is_finite b = true ->
  feq a b = true <-> B2R a = B2R b.
Proof.
  intros. unfold feq. rewrite fcmp_real by auto.
  destruct (Rcompare_spec (B2R a) (B2R b)); split; intros; auto; try discriminate; lra.
Qed.

Lemma fdiv_correct : forall a b, f_is_finite a = true -> B2R b <> 0 ->
  Rabs (B2R a / B2R b) <= bpow radix2 1023 ->
  B2R (fdiv a b) = RN (B2R a / B2R b) /\ f_is_finite (fdiv a b) = true.
Proof.
  intros a b Ha Hb Hr. unfold fdiv, f_is_finite.
  pose proof (Bdiv_correct 53 1024 prec53 prec_emax mode_NE a b Hb) as Hc.
  simpl round_mode in Hc. rewrite Rlt_bool_true in Hc.
  - destruct Hc as (H1 & H2 & _). rewrite H2. auto.
  - apply bpow_emax_big; auto.
Qed.

Lemma fmul_correct : forall a b, f_is_finite a = true -> f_is_finite b = true ->
  Rabs (B2R a * B2R b) <= bpow radix2 1023 ->
  B2R (fmul a b) = RN (B2R a * B2R b) /\ f_is_finite (fmul a b) = true.
Proof.
  intros a b Ha Hb Hr. unfold fmul, f_is_finite in *.
  pose proof (Bmult_correct 53 1024 prec53 prec_emax mode_NE a b) as Hc.
  simpl round_mode in Hc. rewrite Rlt_bool_true in Hc.
  - destruct Hc as (H1 & H2 & _). rewrite H2, Ha, Hb. auto.
  - apply bpow_emax_big; auto.
Qed.

Lemma fadd_correct : forall a b, f_is_finite a = true -> f_is_finite b = true ->
  Rabs (B2R a + B2R b) <= bpow radix2 1023 ->
  B2R (fadd a b) = RN (B2R a + B2R b) /\ f_is_finite (fadd a b) = true.
Proof.
  intros a b Ha Hb Hr. unfold fadd, f_is_finite in *.
  pose proof (Bplus_correct 53 1024 prec53 prec_emax mode_NE a b Ha Hb) as Hc.
  simpl round_mode in Hc. rewrite Rlt_bool_true in Hc.
  - destruct Hc as (H1 & H2 & _). auto.
  - apply bpow_emax_big; auto.
Qed.

Lemma fsub_correct : forall a b, f_is_finite a = true -> f_is_finite b = true ->
  Rabs (B2R a - B2R b) <= bpow radix2 1023 ->
  B2R (fsub a b) = RN (B2R a - B2R b) /\ f_is_finite (fsub a b) = true.
Proof.
  intros a b Ha Hb Hr. unfold fsub, f_is_finite in *.
  pose proof (Bminus_correct 53 1024 prec53 prec_emax mode_NE a b Ha Hb) as Hc.
  simpl round_mode in Hc. rewrite Rlt_bool_true in Hc.
  - destruct Hc as (H1 & H2 & _). auto.
  - apply bpow_emax_big; auto.
Qed.

Lemma B2R_format : forall a, generic_format radix2 fexp64 (B2R a).
Proof. intros. apply generic_format_B2R. Qed.

Lemma Rdiv_le_of : forall a b c, 0 < b -> a <= c * b -> a / b <= c.
Proof.
  intros a b c Hb H. apply Rmult_le_reg_r with b; auto. unfold Rdiv.
  rewrite Rmult_assoc, Rinv_l by lra. lra.
Qed.

Lemma Rle_div_of : forall a b c, 0 < b -> a * b <= c -> a <= c / b.
Proof.
  intros a b c Hb H. apply Rmult_le_reg_r with b; auto. unfold Rdiv.
  rewrite (Rmult_assoc c), Rinv_l by lra. lra.
Qed.

(** a float64 comparison of a ratio of counts against the constant 0.8 *)
Definition f08 : f64 := f_of_dec false 8 (-1).

Lemma f08_val : B2R f08 = 7205759403792794 * / 9007199254740992 /\ f_is_finite f08 = true.
Proof.
  split; [|vm_compute; reflexivity].
  rewrite <- (SF2R_B2SF). 
  assert (E : B2SF f08 = SpecFloat.S754_finite false 7205759403792794 (-53)) by (vm_compute; reflexivity).
  rewrite E. unfold SF2R, F2R, Fnum, Fexp, cond_Zopp.
  change (bpow radix2 (-53)) with (/ IZR (Z.pow_pos 2 53)).
  change (Z.pow_pos 2 53) with 9007199254740992%Z. reflexivity.
Qed.

Lemma ratio_gt_08 : forall n t, (0 < n <= t)%Z -> (t <= 2 ^ 50)%Z ->
  fgt (fdiv (f_of_Z n) (f_of_Z t)) f08 = (4 * t <? 5 * n)%Z.
Proof.
  intros n t Hn Ht.
  assert (Hp : (2 ^ 50 = 1125899906842624)%Z) by reflexivity.
  assert (Hq : (2 ^ 53 = 9007199254740992)%Z) by reflexivity.
  destruct (f_of_Z_exact n ltac:(lia)) as [En Fn].
  destruct (f_of_Z_exact t ltac:(lia)) as [Et Ft].
  destruct f08_val as [E8 F8].
  assert (Hn0 : 0 < IZR n) by (apply IZR_lt; lia).
  assert (Ht0 : 0 < IZR t) by (apply IZR_lt; lia).
  assert (Hnt : IZR n <= IZR t) by (apply IZR_le; lia).
  assert (Htb : IZR t <= 1125899906842624) by (apply IZR_le; lia).
  assert (Hr : 0 < IZR n / IZR t <= 1).
  { split; [apply Rdiv_lt_0_compat; auto|]. apply Rdiv_le_of; lra. }
  destruct (fdiv_correct (f_of_Z n) (f_of_Z t)) as [Ed Fd]; auto.
  - rewrite Et. lra.
  - rewrite En, Et. rewrite Rabs_pos_eq by lra. apply Rle_trans with 1; [lra|].
    change 1 with (bpow radix2 0). apply bpow_le. lia.
  - rewrite En, Et in Ed.
    assert (Hiff := fgt_real _ _ Fd F8). rewrite Ed, E8 in Hiff.
    destruct (Z.ltb_spec (4 * t) (5 * n)) as [Hlt|Hge].
    + apply Hiff.
      assert (HZ : IZR (4 * t + 1) <= IZR (5 * n)) by (apply IZR_le; lia).
      rewrite plus_IZR, !mult_IZR in HZ.
      assert (Hb : F2R (Float radix2 7205759403792795 (-53)) <= IZR n / IZR t).
      { unfold F2R, Fnum, Fexp. change (bpow radix2 (-53)) with (/ IZR (Z.pow_pos 2 53)).
        change (Z.pow_pos 2 53) with 9007199254740992%Z.
        apply Rle_div_of; [lra|].
        apply Rmult_le_reg_l with 5; [lra|].
        apply Rle_trans with (4 * IZR t + 1); [|lra].
        nra. }
      apply Rlt_le_trans with (F2R (Float radix2 7205759403792795 (-53))).
      * unfold F2R, Fnum, Fexp. change (bpow radix2 (-53)) with (/ IZR (Z.pow_pos 2 53)).
        change (Z.pow_pos 2 53) with 9007199254740992%Z. lra.
      * apply round_ge_generic; auto; try typeclasses eauto.
        apply format_F2R; [reflexivity|lia].
    + destruct (fgt (fdiv (f_of_Z n) (f_of_Z t)) f08) eqn:E; auto. exfalso.
      assert (E' := proj1 Hiff eq_refl).
      assert (HZ : IZR (5 * n) <= IZR (4 * t)) by (apply IZR_le; lia).
      rewrite !mult_IZR in HZ.
      assert (Hb : IZR n / IZR t <= B2R f08).
      { rewrite E8. apply Rdiv_le_of; [lra|]. lra. }
      apply (round_le_generic radix2 fexp64 ZnearestE) in Hb; [|apply B2R_format].
      rewrite E8 in Hb. lra.
Qed.

(** int64(x) truncates *)
Lemma f_to_int64_trunc : forall x, f_is_finite x = true ->
  (- two63 <= Ztrunc (B2R x) < two63)%Z -> f_to_int64 x = Ztrunc (B2R x).
Proof.
  intros x Fx Hr.
  assert (E : Btrunc x = Ztrunc (B2R x)).
  { apply eq_IZR. rewrite (Btrunc_correct 53 1024 prec_emax). apply round_FIX_IZR. }
  destruct x as [s|s| |s m e H]; try discriminate.
  - simpl. change (B2R (BinarySingleNaN.B754_zero s)) with 0. rewrite Ztrunc_IZR. reflexivity.
  - unfold f_to_int64. rewrite E.
    destruct (Z.leb_spec (- two63) (Ztrunc (B2R (BinarySingleNaN.B754_finite s m e H))));
      destruct (Z.ltb_spec (Ztrunc (B2R (BinarySingleNaN.B754_finite s m e H))) two63); simpl; lia.
Qed.

Lemma f_to_int64_out : forall x, f_is_finite x = true ->
  ~ (- two63 <= Ztrunc (B2R x) < two63)%Z -> f_to_int64 x = (- two63)%Z.
Proof.
  intros x Fx Hr.
  assert (E : Btrunc x = Ztrunc (B2R x)).
  { apply eq_IZR. rewrite (Btrunc_correct 53 1024 prec_emax). apply round_FIX_IZR. }
  destruct x as [s|s| |s m e H]; try discriminate.
  - exfalso. apply Hr. change (B2R (BinarySingleNaN.B754_zero s)) with 0. rewrite Ztrunc_IZR.
    unfold two63. lia.
  - unfold f_to_int64. rewrite E.
    destruct (Z.leb_spec (- two63) (Ztrunc (B2R (BinarySingleNaN.B754_finite s m e H))));
      destruct (Z.ltb_spec (Ztrunc (B2R (BinarySingleNaN.B754_finite s m e H))) two63); simpl; lia.
Qed.

Lemma f_floor_real : forall x, B2R (f_floor x) = IZR (Zfloor (B2R x)).
Proof.
  intros. destruct (Bnearbyint_correct 53 1024 prec_emax mode_DN x) as (H & _).
  unfold f_floor. rewrite H. apply round_FIX_IZR.
Qed.
Lemma f_trunc_real : forall x, B2R (f_trunc x) = IZR (Ztrunc (B2R x)).
Proof.
  intros. destruct (Bnearbyint_correct 53 1024 prec_emax mode_ZR x) as (H & _).
  unfold f_trunc. rewrite H. apply round_FIX_IZR.
Qed.
Lemma f_round_real : forall x, B2R (f_round x) = IZR (ZnearestA (B2R x)).
Proof.
  intros. destruct (Bnearbyint_correct 53 1024 prec_emax mode_NA x) as (H & _).
  unfold f_round. rewrite H. apply round_FIX_IZR.
Qed.
Lemma f_floor_finite : forall x, f_is_finite (f_floor x) = f_is_finite x.
Proof. intros. apply (Bnearbyint_correct 53 1024 prec_emax mode_DN x). Qed.
Lemma f_trunc_finite : forall x, f_is_finite (f_trunc x) = f_is_finite x.
Proof. intros. apply (Bnearbyint_correct 53 1024 prec_emax mode_ZR x). Qed.
Lemma f_round_finite : forall x, f_is_finite (f_round x) = f_is_finite x.
Proof. intros. apply (Bnearbyint_correct 53 1024 prec_emax mode_NA x). Qed.
Lemma fneg_real : forall x, B2R (fneg x) = - B2R x.
Proof. intros. apply B2R_Bopp. Qed.
Lemma fneg_finite : forall x, f_is_finite (fneg x) = f_is_finite x.
Proof. intros. apply is_finite_Bopp. Qed.

Lemma f_zero_real : B2R f_zero = 0. Proof. reflexivity. Qed.

Lemma feq_zero : forall x, feq x f_zero = true <-> (f_is_finite x = true /\ B2R x = 0).
Proof.
  intros x. split.
  - intros H. destruct x as [s|s| |s m e Hm].
    + split; reflexivity.
    + destruct s; discriminate.
    + discriminate.
    + split; [reflexivity|]. apply feq_real in H; auto.
  - intros [F H]. apply feq_real; auto.
Qed.

Lemma f_of_Z_not_nan : forall z, f_is_nan (f_of_Z z) = false.
Proof.
  intros z. unfold f_of_Z, f_norm, f_is_nan.
  pose proof (binary_normalize_correct 53 1024 prec53 prec_emax mode_NE z 0 false) as H.
  cbv zeta in H.
  destruct (Rlt_bool _ _).
  - destruct H as (_ & H & _). destruct (binary_normalize _ _ _ _ _ _ _ _); try reflexivity. discriminate.
  - destruct (binary_normalize _ _ _ _ _ _ _ _); try reflexivity. cbn in H. discriminate.
Qed.

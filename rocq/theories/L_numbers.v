(** * L_numbers: facts about the fraction approximation (numbers.go). *)
From Verif Require Import GoBase GoFloat L_base L_float M_numbers.
From Coq Require Import Reals Lra Psatz.
From Flocq Require Import Core IEEE754.BinarySingleNaN.
Open Scope R_scope.

Local Opaque fadd fsub fmul fdiv f_floor f_round f_trunc f_of_Z f_1em9 f_1e9 f_1em10.

Lemma fge_real : forall a b, f_is_finite a = true -> f_is_finite b = true ->
  fge a b = true <-> B2R a >= B2R b.
Proof.
  intros. unfold fge. rewrite fcmp_real by auto.
  destruct (Rcompare_spec (B2R a) (B2R b)); split; intros; auto; try discriminate; lra.
Qed.
Lemma fge_real_false : forall a b, f_is_finite a = true -> f_is_finite b = true ->
  fge a b = false -> B2R a < B2R b.
Proof.
  intros a b Ha Hb H. destruct (Rlt_or_le (B2R a) (B2R b)) as [L|L]; auto.
  assert (fge a b = true) by (apply fge_real; auto; lra). congruence.
Qed.
Lemma flt_real_false : forall a b, f_is_finite a = true -> f_is_finite b = true ->
  flt a b = false -> B2R b <= B2R a.
Proof.
  intros a b Ha Hb H. destruct (Rlt_or_le (B2R a) (B2R b)) as [L|L]; auto.
  assert (flt a b = true) by (apply flt_real; auto). congruence.
Qed.
Lemma fgt_real_false : forall a b, f_is_finite a = true -> f_is_finite b = true ->
  fgt a b = false -> B2R a <= B2R b.
Proof.
  intros a b Ha Hb H. destruct (Rlt_or_le (B2R b) (B2R a)) as [L|L]; auto.
  assert (fgt a b = true) by (apply fgt_real; auto). congruence.
Qed.
Lemma feq_real_false : forall a b, f_is_finite a = true -> f_is_finite b = true ->
  feq a b = false -> B2R a <> B2R b.
Proof. intros a b Ha Hb H E. apply feq_real in E; auto. congruence. Qed.

Lemma RN_le : forall x y, x <= y -> RN x <= RN y.
Proof. intros. apply round_le; auto; typeclasses eauto. Qed.
Lemma RN_bpow : forall e, (-1000 <= e)%Z -> RN (bpow radix2 e) = bpow radix2 e.
Proof.
  intros. apply round_generic; [typeclasses eauto|]. apply generic_format_bpow.
  unfold fexp64, SpecFloat.fexp, SpecFloat.emin. lia.
Qed.
Lemma RN_1 : RN 1 = 1. Proof. apply (RN_Z 1). lia. Qed.
Lemma IZR_pow2 : forall e, (0 <= e)%Z -> IZR (2 ^ e) = bpow radix2 e.
Proof. intros. rewrite <- (IZR_Zpower radix2) by auto. reflexivity. Qed.

Lemma f_one_real : B2R f_one = 1 /\ f_is_finite f_one = true.
Proof. unfold f_one. apply (f_of_Z_exact 1). lia. Qed.
Local Opaque f_one.

(** floats from 2^e on are multiples of 2^(e-52) *)
Lemma float_grid : forall e x, (-1000 <= e)%Z -> generic_format radix2 fexp64 x -> bpow radix2 e <= x ->
  exists k, x = IZR k * bpow radix2 (e - 52).
Proof.
  intros e0 x E0 G H. rewrite G. set (e := cexp radix2 fexp64 x).
  assert (He : (e0 - 52 <= e)%Z).
  { unfold e, cexp, fexp64, SpecFloat.fexp, SpecFloat.emin.
    assert (e0 + 1 <= mag radix2 x)%Z.
    { apply mag_ge_bpow. replace (e0 + 1 - 1)%Z with e0 by lia.
      rewrite Rabs_pos_eq; auto. pose proof (bpow_ge_0 radix2 e0). lra. }
    lia. }
  unfold F2R; cbn [Fnum Fexp]. exists (Ztrunc (scaled_mantissa radix2 fexp64 x) * 2 ^ (e - (e0 - 52)))%Z.
  rewrite mult_IZR, IZR_pow2, Rmult_assoc, <- bpow_plus by lia.
  f_equal. f_equal. lia.
Qed.
Lemma big_float_grid : forall x, generic_format radix2 fexp64 x -> 1 <= x ->
  exists k, x = IZR k * bpow radix2 (-52).
Proof. intros. apply (float_grid 0); auto. lia. Qed.
Lemma big_float_int : forall x, generic_format radix2 fexp64 x -> bpow radix2 52 <= x ->
  exists k, x = IZR k.
Proof.
  intros x G H. destruct (float_grid 52 x) as [k Hk]; auto; [lia|]. exists k. rewrite Hk. simpl. lra.
Qed.

(** the fractional part of a float is a float *)
Lemma frac_exact : forall x, generic_format radix2 fexp64 x ->
  generic_format radix2 fexp64 (x - IZR (Ztrunc x)).
Proof.
  intros x G. set (e := cexp radix2 fexp64 x). set (m := Ztrunc (scaled_mantissa radix2 fexp64 x)).
  assert (E : x = IZR m * bpow radix2 e) by exact G.
  destruct (Z_le_gt_dec 0 e) as [C|C].
  - assert (x = IZR (m * 2 ^ e)) by (rewrite mult_IZR, IZR_pow2 by auto; auto).
    rewrite H at 1. rewrite H. rewrite Ztrunc_IZR, Rminus_diag_eq by auto. apply generic_format_0.
  - set (t := Ztrunc x). set (q := (m - t * 2 ^ (- e))%Z).
    assert (Q : x - IZR t = F2R (Float radix2 q e)).
    { unfold F2R, q; cbn [Fnum Fexp]. rewrite minus_IZR, mult_IZR, IZR_pow2 by lia.
      rewrite Rmult_minus_distr_r, <- E, Rmult_assoc, <- bpow_plus.
      replace (- e + e)%Z with 0%Z by lia. simpl (bpow radix2 0). lra. }
    rewrite Q. apply format_F2R.
    + assert (M : (Z.abs m < 2 ^ 53)%Z).
      { apply lt_IZR. rewrite IZR_pow2 by lia. rewrite abs_IZR.
        assert (A : Rabs (scaled_mantissa radix2 fexp64 x) < bpow radix2 53).
        { assert (VV : Valid_exp fexp64) by typeclasses eauto.
          destruct (Req_dec x 0) as [X0|X0].
          { rewrite X0. rewrite scaled_mantissa_0, Rabs_R0. apply bpow_gt_0. }
          apply Rlt_le_trans with (bpow radix2 (mag radix2 x - cexp radix2 fexp64 x)).
          - apply scaled_mantissa_lt_bpow.
          - apply bpow_le. unfold cexp, fexp64, SpecFloat.fexp, SpecFloat.emin. lia. }
        unfold m. rewrite <- scaled_mantissa_generic; auto. }
      assert (AB : Rabs (x - IZR t) <= Rabs x).
      { unfold t. destruct (Rle_or_lt 0 x) as [X|X].
        - rewrite Ztrunc_floor by auto. pose proof (Zfloor_lb x).
          assert (0 <= IZR (Zfloor x)) by (apply (IZR_le 0), Zfloor_lub; simpl; lra).
          rewrite !Rabs_pos_eq; lra.
        - rewrite Ztrunc_ceil by lra. pose proof (Zceil_ub x).
          assert (IZR (Zceil x) <= 0) by (apply (IZR_le _ 0), Zceil_glb; simpl; lra).
          rewrite !Rabs_left1; lra. }
      rewrite Q in AB. rewrite E in AB. unfold F2R in AB; cbn [Fnum Fexp] in AB.
      rewrite !Rabs_mult in AB. rewrite (Rabs_pos_eq (bpow radix2 e)) in AB by apply bpow_ge_0.
      apply Rmult_le_reg_r in AB; [|apply bpow_gt_0]. rewrite <- !abs_IZR in AB. apply le_IZR in AB. lia.
    + unfold e, cexp, fexp64, SpecFloat.fexp, SpecFloat.emin. lia.
Qed.

(** the fractional part is 0 or not too small *)
Definition frac_ok (z : f64) : Prop :=
  f_is_finite z = true /\ 0 < B2R z /\
  (B2R z = IZR (Zfloor (B2R z)) \/ bpow radix2 (-60) <= B2R z - IZR (Zfloor (B2R z))).

Lemma frac_ok_big : forall z, f_is_finite z = true -> 1 <= B2R z -> frac_ok z.
Proof.
  intros z F H. split; auto. split; [lra|].
  destruct (big_float_grid (B2R z) (B2R_format z) H) as [k Hk].
  set (n := Zfloor (B2R z)).
  assert (E : B2R z - IZR n = IZR (k - n * 2 ^ 52) * bpow radix2 (-52)).
  { rewrite minus_IZR, mult_IZR, IZR_pow2 by lia. rewrite Hk at 1.
    rewrite Rmult_minus_distr_r, Rmult_assoc, <- bpow_plus. simpl (52 + -52)%Z. simpl bpow at 3. lra. }
  pose proof (Zfloor_lb (B2R z)) as Hl. fold n in Hl.
  assert (B : 0 < bpow radix2 (-52)) by apply bpow_gt_0.
  destruct (Z.eq_dec (k - n * 2 ^ 52) 0) as [Z0|Z0].
  - left. fold n. rewrite Z0, Rmult_0_l in E. lra.
  - right. fold n. rewrite E.
    assert (1 <= IZR (k - n * 2 ^ 52)).
    { apply IZR_le. assert (0 <= IZR (k - n * 2 ^ 52)).
      { apply Rmult_le_reg_r with (bpow radix2 (-52)); auto. lra. }
      apply le_IZR in H0. lia. }
    apply Rle_trans with (bpow radix2 (-52)); [apply bpow_le; lia|]. nra.
Qed.

Lemma feq_floor : forall z, f_is_finite z = true ->
  feq z (f_floor z) = true <-> B2R z = IZR (Zfloor (B2R z)).
Proof.
  intros. rewrite feq_real by (auto; rewrite f_floor_finite; auto). rewrite f_floor_real. tauto.
Qed.

Lemma bpow60 : bpow radix2 60 = / bpow radix2 (-60).
Proof. rewrite <- bpow_opp. reflexivity. Qed.

Definition znext (z : f64) : f64 := fdiv f_one (fsub z (f_floor z)).

Lemma znext_ok : forall z, frac_ok z -> B2R z <> IZR (Zfloor (B2R z)) ->
  let r := B2R (fsub z (f_floor z)) in
  r = RN (B2R z - IZR (Zfloor (B2R z))) /\ 0 < r <= 1 /\ B2R (znext z) = RN (/ r) /\
  f_is_finite (znext z) = true /\ 1 <= B2R (znext z) <= bpow radix2 60 /\ frac_ok (znext z).
Proof.
  intros z (F & P & Q) N. unfold znext. cbv zeta.
  destruct Q as [Q|Q]; [tauto|].
  pose proof (Zfloor_lb (B2R z)). pose proof (Zfloor_ub (B2R z)).
  set (n := Zfloor (B2R z)) in *. set (d := B2R z - IZR n) in *.
  assert (B : 0 < bpow radix2 (-60)) by apply bpow_gt_0.
  destruct (fsub_correct z (f_floor z)) as [E1 E2]; auto.
  { rewrite f_floor_finite; auto. }
  { rewrite f_floor_real. fold n. fold d. rewrite Rabs_pos_eq by lra.
    apply Rle_trans with 1; [unfold d; lra|]. change 1 with (bpow radix2 0). apply bpow_le. lia. }
  rewrite f_floor_real in E1. fold n in E1. fold d in E1.
  assert (L : bpow radix2 (-60) <= RN d) by (rewrite <- (RN_bpow (-60)) by lia; apply RN_le; auto).
  assert (U : RN d <= 1) by (rewrite <- RN_1; apply RN_le; unfold d; lra).
  destruct f_one_real as [O1 O2].
  destruct (fdiv_correct f_one (fsub z (f_floor z))) as [D1 D2]; auto.
  { rewrite E1. lra. }
  { rewrite E1, O1. rewrite Rabs_pos_eq by (apply Rle_div_of; lra).
    apply Rdiv_le_of; [lra|]. apply Rle_trans with (bpow radix2 60 * bpow radix2 (-60)).
    - rewrite <- bpow_plus. simpl. lra.
    - apply Rmult_le_compat; try apply bpow_ge_0; auto. apply bpow_le. lia. }
  rewrite E1, O1 in D1.
  assert (D1' : B2R (fdiv f_one (fsub z (f_floor z))) = RN (/ RN d)).
  { rewrite D1. f_equal. unfold Rdiv. lra. }
  assert (R1 : 1 <= / RN d).
  { rewrite <- Rinv_1. apply Rinv_le; lra. }
  assert (R2 : / RN d <= bpow radix2 60).
  { rewrite bpow60. apply Rinv_le; auto. }
  assert (G1 : 1 <= B2R (fdiv f_one (fsub z (f_floor z)))).
  { rewrite D1'. rewrite <- RN_1. apply RN_le; auto. }
  assert (G2 : B2R (fdiv f_one (fsub z (f_floor z))) <= bpow radix2 60).
  { rewrite D1'. rewrite <- (RN_bpow 60) by lia. apply RN_le; auto. }
  rewrite E1. split; [auto|]. split; [lra|]. split; [auto|]. split; [auto|]. split; [lra|].
  apply frac_ok_big; auto.
Qed.

Lemma RN_0 : RN 0 = 0. Proof. apply (RN_Z 0). lia. Qed.

Lemma dnext_ok : forall z denom ld (D LD : Z), f_is_finite z = true -> f_is_finite denom = true ->
  f_is_finite ld = true -> 1 <= B2R z <= bpow radix2 60 ->
  B2R denom = IZR D -> B2R ld = IZR LD -> (1 <= D <= 2 ^ 53)%Z -> (0 <= LD <= D)%Z ->
  let F := Zfloor (B2R z) in
  let d1 := fadd (fmul denom (f_floor z)) ld in
  f_is_finite d1 = true /\ (1 <= F)%Z /\ 1 <= B2R d1 <= bpow radix2 120 /\
  ((B2R d1 = IZR (D * F + LD) /\ (D * F + LD <= 2 ^ 53)%Z) \/
   ((2 ^ 53 < D * F + LD)%Z /\ IZR (2 ^ 53) <= B2R d1)).
Proof.
  intros z denom ld D LD Fz Fd Fl Hz HD HL BD BL. cbv zeta.
  set (F := Zfloor (B2R z)).
  assert (F1 : (1 <= F)%Z) by (apply Zfloor_lub; simpl; lra).
  assert (FU : IZR F <= bpow radix2 60) by (pose proof (Zfloor_lb (B2R z)); fold F in H; lra).
  assert (RF1 : 1 <= IZR F) by (apply (IZR_le 1); lia).
  assert (RD1 : 1 <= IZR D) by (apply (IZR_le 1); lia).
  assert (RDU : IZR D <= bpow radix2 53) by (rewrite <- IZR_pow2 by lia; apply IZR_le; lia).
  assert (RL0 : 0 <= IZR LD) by (apply (IZR_le 0); lia).
  assert (RLU : IZR LD <= bpow radix2 53) by (rewrite <- IZR_pow2 by lia; apply IZR_le; lia).
  assert (P : 0 <= IZR D * IZR F <= bpow radix2 113).
  { split; [nra|]. change 113%Z with (53 + 60)%Z. rewrite bpow_plus.
    apply Rmult_le_compat; lra. }
  assert (BB : bpow radix2 113 <= bpow radix2 1023) by (apply bpow_le; lia).
  destruct (fmul_correct denom (f_floor z)) as [E1 E2]; auto.
  { rewrite f_floor_finite; auto. }
  { rewrite f_floor_real, HD. fold F. rewrite Rabs_pos_eq; lra. }
  rewrite f_floor_real, HD in E1. fold F in E1.
  assert (M1 : 0 <= RN (IZR D * IZR F) <= bpow radix2 113).
  { split; [rewrite <- RN_0 | rewrite <- (RN_bpow 113) by lia]; apply RN_le; lra. }
  assert (B53 : bpow radix2 53 <= bpow radix2 113) by (apply bpow_le; lia).
  assert (B114 : bpow radix2 113 + bpow radix2 113 = bpow radix2 114).
  { change 114%Z with (113 + 1)%Z. rewrite bpow_plus. simpl (bpow radix2 1). lra. }
  assert (B1023 : bpow radix2 114 <= bpow radix2 1023) by (apply bpow_le; lia).
  destruct (fadd_correct (fmul denom (f_floor z)) ld) as [G1 G2]; auto.
  { rewrite E1, HL. rewrite Rabs_pos_eq; lra. }
  rewrite E1, HL in G1.
  assert (Q1 : 1 <= RN (IZR D * IZR F)).
  { rewrite <- RN_1 at 1. apply RN_le. nra. }
  repeat split; auto.
  - rewrite G1, <- RN_1. apply RN_le. lra.
  - rewrite G1. apply Rle_trans with (bpow radix2 114); [|apply bpow_le; lia].
    rewrite <- (RN_bpow 114) by lia. apply RN_le. lra.
  - rewrite <- mult_IZR in E1, G1, Q1.
    destruct (Z_le_gt_dec (D * F) (2 ^ 53)) as [C|C].
    + rewrite (RN_Z (D * F)) in G1 by lia. rewrite <- plus_IZR in G1.
      destruct (Z_le_gt_dec (D * F + LD) (2 ^ 53)) as [C2|C2].
      * left. rewrite G1, RN_Z by lia. auto.
      * right. split; [lia|]. rewrite G1. rewrite <- (RN_Z (2 ^ 53)) by lia. apply RN_le. apply IZR_le. lia.
    + right. split; [lia|]. rewrite G1. rewrite <- (RN_Z (2 ^ 53)) by lia. apply RN_le.
      assert (IZR (2 ^ 53) <= RN (IZR (D * F))).
      { rewrite <- (RN_Z (2 ^ 53)) by lia. apply RN_le. apply IZR_le. lia. }
      lra.
Qed.

Lemma ZnearestA_ge : forall x, 0 <= x -> (0 <= ZnearestA x)%Z.
Proof.
  intros x H. pose proof (Znearest_half (Z.leb 0) x) as Hh.
  apply Rabs_le_inv in Hh. destruct Hh as [H1 H2].
  assert (IZR (ZnearestA x) > -1) by lra.
  assert (ZnearestA x > -1)%Z by (apply Z.lt_gt, lt_IZR; lra). lia.
Qed.

Lemma pow10_15 : forall n, (0 <= n <= 15)%Z -> (1 <= 10 ^ n <= 10 ^ 15)%Z.
Proof.
  intros. split.
  - assert (0 < 10 ^ n)%Z by (apply Z.pow_pos_nonneg; lia). lia.
  - apply Z.pow_le_mono_r; lia.
Qed.

Section loop.
Context (val : f64) (nn nd : Z).
Context (Fv : f_is_finite val = true) (Pv : 0 < B2R val <= bpow radix2 60).
Context (Hn : (0 <= nn <= 15)%Z) (Hd : (0 <= nd <= 15)%Z).
(** an additional property of the accepted pairs *)
Context (good : Z -> Z -> Prop).
Context (good_step : forall (N D : Z), (0 <= N < 10 ^ nn)%Z -> (1 <= D < 10 ^ nd)%Z ->
            N = ZnearestA (RN (B2R val * IZR D)) -> good N D).

Lemma frac_loop_ok : forall fuel z diff denom numer lden lnum (D LD N : Z),
  frac_ok z -> f_is_finite denom = true -> f_is_finite numer = true -> f_is_finite lden = true ->
  B2R denom = IZR D -> B2R lden = IZR LD -> B2R numer = IZR N ->
  (1 <= D < 10 ^ nd)%Z -> (0 <= LD <= D)%Z -> (0 <= N < 10 ^ nn)%Z -> good N D ->
  (2 ^ Z.of_nat fuel * (2 * 10 ^ 15) < 3 ^ Z.of_nat fuel * (D + LD))%Z ->
  exists n d, frac_loop fuel val (f_of_Z (10 ^ nn)) (f_of_Z (10 ^ nd)) 1 z diff denom numer lden lnum
              = Ok (n, d) /\ (0 <= n < 10 ^ nn)%Z /\ (1 <= d < 10 ^ nd)%Z /\ good n d.
Proof.
  pose proof (pow10_15 nn Hn) as Bn. pose proof (pow10_15 nd Hd) as Bd.
  assert (T : (10 ^ 15 < 2 ^ 50)%Z) by reflexivity.
  assert (T2 : (2 ^ 50 < 2 ^ 53)%Z) by reflexivity.
  assert (T63 : (2 ^ 53 < two63)%Z) by reflexivity.
  assert (toint : forall x k, f_is_finite x = true -> B2R x = IZR k -> (0 <= k < 2 ^ 53)%Z -> f_to_int64 x = k).
  { intros x k Fx Ex Bk. rewrite f_to_int64_trunc; auto; rewrite Ex, Ztrunc_IZR; unfold two63 in *; lia. }
  induction fuel; intros z diff denom numer lden lnum D LD N Hz Fd Fnu Fl ED EL EN BD BL BN HG HM.
  - exfalso. change (Z.of_nat 0) with 0%Z in HM. rewrite !Z.pow_0_r in HM. lia.
  - cbn [frac_loop].
    destruct (fgt diff f_1em10 && negb (feq z (f_floor z))) eqn:C.
    2: { exists N, D. split; [|auto]. rewrite (toint numer N), (toint denom D) by (auto; lia).
         f_equal. f_equal. lia. }
    apply andb_true_iff in C as [_ C]. apply negb_true_iff in C.
    assert (NZ : B2R z <> IZR (Zfloor (B2R z))).
    { intros E. apply feq_floor in E; [congruence|apply Hz]. }
    destruct (znext_ok z Hz NZ) as (_ & _ & _ & Fz1 & Bz1 & Hz1). unfold znext in *.
    set (z1 := fdiv f_one (fsub z (f_floor z))) in *.
    destruct (dnext_ok z1 denom lden D LD Fz1 Fd Fl Bz1 ED EL) as (Fd1 & F1 & Bd1 & Ed1); try lia.
    set (F := Zfloor (B2R z1)) in *. set (d1 := fadd (fmul denom (f_floor z1)) lden) in *.
    assert (Bv1 : 0 <= B2R val * B2R d1 <= bpow radix2 180).
    { split; [nra|]. change 180%Z with (60 + 120)%Z. rewrite bpow_plus. apply Rmult_le_compat; lra. }
    assert (BB : bpow radix2 180 <= bpow radix2 1023) by (apply bpow_le; lia).
    destruct (fmul_correct val d1) as [E1 E2]; auto.
    { rewrite Rabs_pos_eq; lra. }
    set (n1 := f_round (fmul val d1)).
    assert (Fn1 : f_is_finite n1 = true) by (unfold n1; rewrite f_round_finite; auto).
    assert (En1 : B2R n1 = IZR (ZnearestA (RN (B2R val * B2R d1)))) by (unfold n1; rewrite f_round_real, E1; auto).
    destruct (f_of_Z_exact (10 ^ nn)) as [X1 X2]; [lia|].
    destruct (f_of_Z_exact (10 ^ nd)) as [Y1 Y2]; [lia|].
    cbv zeta. fold z1. fold d1. fold n1.
    destruct (fge n1 (f_of_Z (10 ^ nn)) || fge d1 (f_of_Z (10 ^ nd))) eqn:C2.
    { exists N, D. split; [|auto]. rewrite (toint numer N), (toint denom D) by (auto; lia).
      f_equal. f_equal. lia. }
    apply orb_false_iff in C2 as [C3 C4].
    apply fge_real_false in C3; auto. apply fge_real_false in C4; auto.
    rewrite X1, En1 in C3. apply lt_IZR in C3. rewrite Y1 in C4.
    destruct Ed1 as [[Ed1 Bd2]|[_ Ed1]].
    2: { exfalso. assert (IZR (2 ^ 53) < IZR (10 ^ nd)) by lra. apply lt_IZR in H. lia. }
    rewrite Ed1 in C4. apply lt_IZR in C4.
    assert (N0 : (0 <= ZnearestA (RN (B2R val * B2R d1)))%Z).
    { apply ZnearestA_ge. rewrite <- RN_0. apply RN_le. lra. }
    assert (DF : (D <= D * F)%Z) by (apply Z.le_mul_diag_r; lia).
    apply (IHfuel z1 _ d1 n1 denom numer (D * F + LD)%Z D (ZnearestA (RN (B2R val * B2R d1)))); auto; try lia.
    + apply good_step; try lia. rewrite Ed1. reflexivity.
    + rewrite Nat2Z.inj_succ, !Z.pow_succ_r in HM by lia.
      assert (P3 : (0 < 3 ^ Z.of_nat fuel)%Z) by (apply Z.pow_pos_nonneg; lia).
      assert (Q3 : (3 * (D + LD) <= 2 * (D * F + LD + D))%Z) by lia.
      apply (Z.mul_le_mono_nonneg_l _ _ (3 ^ Z.of_nat fuel)) in Q3; [|lia].
      set (DD := (D * F + LD + D)%Z) in *. set (E0 := (D + LD)%Z) in *.
      set (p3 := (3 ^ Z.of_nat fuel)%Z) in *. set (p2 := (2 ^ Z.of_nat fuel)%Z) in *.
      clearbody p2 p3 DD E0. clear - HM Q3. nia.
Qed.
End loop.

(** the constants *)
Local Transparent f_1em9.
Lemma f_1em9_val : B2R f_1em9 = IZR 4835703278458517 * bpow radix2 (-82) /\ f_is_finite f_1em9 = true.
Proof.
  split; [|vm_compute; reflexivity].
  rewrite <- (SF2R_B2SF).
  assert (E : B2SF f_1em9 = SpecFloat.S754_finite false 4835703278458517 (-82)) by (vm_compute; reflexivity).
  rewrite E. reflexivity.
Qed.
Local Opaque f_1em9.

Definition zbpow82 : Z := 2 ^ 82.
Lemma bpow_m82 : bpow radix2 (-82) = / IZR zbpow82.
Proof. reflexivity. Qed.

Lemma above_1em9 : forall x, generic_format radix2 fexp64 x -> / IZR (10 ^ 9) < x -> B2R f_1em9 <= x.
Proof.
  intros x G H. destruct f_1em9_val as [E _]. rewrite E, bpow_m82.
  assert (Z82 : IZR zbpow82 = 4835703278458516698824704) by reflexivity.
  destruct (float_grid (-30) x) as [k Hk]; auto; [lia| |].
  { apply Rlt_le. apply Rle_lt_trans with (2 := H). change (bpow radix2 (-30)) with (/ IZR (2 ^ 30)).
    apply Rinv_le; [apply IZR_lt; reflexivity|]. apply IZR_le. intros; discriminate. }
  change (-30 - 52)%Z with (-82)%Z in Hk. rewrite bpow_m82 in Hk. rewrite Hk in H |- *.
  assert (P : 0 < / IZR zbpow82) by (apply Rinv_0_lt_compat; rewrite Z82; lra).
  apply Rmult_le_compat_r; [lra|]. apply IZR_le.
  assert (4835703278458516 < IZR k).
  { apply Rmult_lt_reg_r with (/ IZR zbpow82); auto. apply Rle_lt_trans with (2 := H).
    rewrite Z82. change (IZR (10 ^ 9)) with 1000000000. lra. }
  apply lt_IZR in H0. lia.
Qed.

Lemma fuel_enough : forall fuel, (100 <= fuel)%nat ->
  (2 ^ Z.of_nat fuel * (2 * 10 ^ 15) < 3 ^ Z.of_nat fuel)%Z.
Proof.
  intros fuel H. induction H; [vm_compute; reflexivity|].
  rewrite Nat2Z.inj_succ, !Z.pow_succ_r by lia.
  assert (0 < 3 ^ Z.of_nat m)%Z by (apply Z.pow_pos_nonneg; lia). lia.
Qed.

Lemma trunc_small : forall x, 0 <= x < 1 -> Ztrunc x = 0%Z.
Proof. intros. rewrite Ztrunc_floor by lra. apply Zfloor_imp. change (0 + 1)%Z with 1%Z. lra. Qed.

(** the fractional part as computed *)
Lemma modf_frac : forall x, f_is_finite x = true ->
  B2R (snd (f_modf x)) = B2R x - IZR (Ztrunc (B2R x)) /\ f_is_finite (snd (f_modf x)) = true.
Proof.
  intros x F. unfold f_modf, snd.
  destruct (fsub_correct x (f_trunc x)) as [E1 E2]; auto.
  - rewrite f_trunc_finite; auto.
  - rewrite f_trunc_real. apply Rle_trans with 1; [|change 1 with (bpow radix2 0); apply bpow_le; lia].
    destruct (Rle_or_lt 0 (B2R x)) as [X|X].
    + rewrite Ztrunc_floor by auto. pose proof (Zfloor_lb (B2R x)). pose proof (Zfloor_ub (B2R x)).
      rewrite Rabs_pos_eq; lra.
    + rewrite Ztrunc_ceil by lra. pose proof (Zceil_ub (B2R x)). pose proof (Zceil_lb (B2R x)).
      rewrite Rabs_left1; lra.
  - split; auto. rewrite E1, f_trunc_real. apply round_generic; [typeclasses eauto|].
    apply frac_exact. apply B2R_format.
Qed.

Lemma RN_err : forall x, 0 <= x <= bpow radix2 50 -> Rabs (RN x - x) <= / 8.
Proof.
  intros x H. assert (VV : Valid_exp fexp64) by typeclasses eauto.
  assert (MM : Monotone_exp fexp64) by typeclasses eauto.
  apply Rle_trans with (/ 2 * ulp radix2 fexp64 x); [apply error_le_half_ulp; auto|].
  assert (ulp radix2 fexp64 x <= ulp radix2 fexp64 (bpow radix2 50)).
  { apply ulp_le; auto. rewrite !Rabs_pos_eq; try lra. }
  rewrite ulp_bpow in H0. change (bpow radix2 (fexp64 (50 + 1))) with (/ 4) in H0. lra.
Qed.

(** accepted pairs approximate the value *)
Lemma near_good : forall v (N D : Z), 0 < v -> (1 <= D)%Z -> (N < 10 ^ 15)%Z ->
  N = ZnearestA (RN (v * IZR D)) -> Rabs (IZR N - v * IZR D) <= 5 / 8.
Proof.
  intros v N D Hv HD HN E. subst N.
  set (p := v * IZR D) in *. assert (P : 0 <= p).
  { unfold p. assert (1 <= IZR D) by (apply (IZR_le 1); auto). nra. }
  pose proof (Znearest_half (Z.leb 0) (RN p)) as Hh. apply Rabs_le_inv in Hh.
  assert (C : p <= bpow radix2 50).
  { destruct (Rle_or_lt p (bpow radix2 50)) as [C|C]; auto. exfalso.
    assert (bpow radix2 50 <= RN p) by (rewrite <- (RN_bpow 50) by lia; apply RN_le; lra).
    apply IZR_lt in HN. change (bpow radix2 50) with 1125899906842624 in H.
    change (IZR (10 ^ 15)) with 1000000000000000 in HN. lra. }
  pose proof (RN_err p (conj P C)) as He. apply Rabs_le_inv in He.
  apply Rabs_le. lra.
Qed.

Lemma frac_start : forall val, f_is_finite val = true ->
  flt (snd (f_modf val)) f_1em9 = false -> feq (snd (f_modf val)) f_zero = false ->
  flt val f_zero = false /\ frac_ok val /\ 0 < B2R val <= bpow radix2 60.
Proof.
  intros val F H H0. destruct (modf_frac val F) as [E1 E2]. destruct f_1em9_val as [V1 V2].
  apply flt_real_false in H; auto. rewrite E1, V1 in H.
  assert (B : bpow radix2 (-60) < IZR 4835703278458517 * bpow radix2 (-82)).
  { rewrite bpow_m82. change (bpow radix2 (-60)) with (/ IZR (2 ^ 60)).
    change (IZR (2 ^ 60)) with 1152921504606846976.
    assert (Z82 : IZR zbpow82 = 4835703278458516698824704) by reflexivity. rewrite Z82. lra. }
  pose proof (bpow_gt_0 radix2 (-60)) as B0.
  assert (P : 0 < B2R val).
  { destruct (Rle_or_lt (B2R val) 0) as [X|X]; auto.
    rewrite Ztrunc_ceil in H by lra. pose proof (Zceil_ub (B2R val)). lra. }
  split; [|split; [split; [auto|split; [auto|]]|split; [auto|]]].
  - destruct (flt val f_zero) eqn:C; auto. apply flt_real in C; auto. rewrite f_zero_real in C. lra.
  - right. rewrite Ztrunc_floor in H by lra. lra.
  - destruct (Rle_or_lt (B2R val) (bpow radix2 60)) as [X|X]; auto. exfalso.
    destruct (big_float_int (B2R val)) as [k Hk]; [apply B2R_format| |].
    { apply Rle_trans with (bpow radix2 60); [apply bpow_le; lia|lra]. }
    rewrite Hk, Ztrunc_IZR in H. lra.
Qed.

Definition lim (n : Z) : Z := if (n =? 0)%Z then 2%Z else n.
Lemma lim_range : forall n, (0 <= n <= 15)%Z -> (1 <= lim n <= 15)%Z.
Proof. intros. unfold lim. destruct (Z.eqb_spec n 0); lia. Qed.

Lemma fraction_main : forall fuel val nn nd (good : Z -> Z -> Prop), (100 <= fuel)%nat ->
  f_is_finite val = true -> (0 <= nn <= 15)%Z -> (0 <= nd <= 15)%Z ->
  flt (snd (f_modf val)) f_1em9 = false -> feq (snd (f_modf val)) f_zero = false ->
  fgt (snd (f_modf val)) f_1e9 = false ->
  (forall (N D : Z), (0 <= N < 10 ^ (lim nn))%Z -> (1 <= D < 10 ^ (lim nd))%Z ->
            N = ZnearestA (RN (B2R val * IZR D)) -> good N D) ->
  good 0%Z 1%Z ->
  exists n d, decimal_to_fraction fuel val nn nd = Ok (n, d) /\
    (0 <= n < 10 ^ (lim nn))%Z /\ (1 <= d < 10 ^ (lim nd))%Z /\ good n d.
Proof.
  intros fuel val nn nd good HF F Hn Hd H1 H2 H3 HG G0.
  destruct (frac_start val F H1 H2) as (S1 & S2 & S3).
  pose proof (lim_range nn Hn) as Ln. pose proof (lim_range nd Hd) as Ld.
  unfold decimal_to_fraction. fold (lim nn). fold (lim nd). rewrite S1.
  destruct (f_modf val) as [ip fp]. cbn [snd] in *. rewrite H1, H2, H3.
  destruct f_one_real as [O1 O2].
  assert (TT : forall k, (1 <= k)%Z -> (10 <= 10 ^ k)%Z).
  { intros k Hk. change 10%Z with (10 ^ 1)%Z at 1. apply Z.pow_le_mono_r; lia. }
  pose proof (TT _ (proj1 Ln)). pose proof (TT _ (proj1 Ld)).
  apply (frac_loop_ok val (lim nn) (lim nd)) with (D := 1%Z) (LD := 0%Z) (N := 0%Z); auto; try lia.
  pose proof (fuel_enough fuel HF). lia.
Qed.

Lemma fge_nan : forall b, fge BinarySingleNaN.B754_nan b = false. Proof. reflexivity. Qed.

Local Transparent fadd fsub fmul fdiv f_floor f_round f_trunc.
Lemma frac_loop_nan : forall k mxn mxd sign diff a b c d,
  exists r, frac_loop (S (S k)) BinarySingleNaN.B754_nan mxn mxd sign BinarySingleNaN.B754_nan diff a b c d = Ok r.
Proof.
  intros. cbn [frac_loop].
  destruct (fgt diff f_1em10 && _); [|eexists; reflexivity].
  assert (Hm : forall x, fmul BinarySingleNaN.B754_nan x = BinarySingleNaN.B754_nan) by (intros [| | |]; reflexivity).
  assert (Hm2 : forall x, fmul x BinarySingleNaN.B754_nan = BinarySingleNaN.B754_nan) by (intros [| | |]; reflexivity).
  assert (Ha : forall x, fadd BinarySingleNaN.B754_nan x = BinarySingleNaN.B754_nan) by (intros [| | |]; reflexivity).
  cbv zeta.
  replace (fsub BinarySingleNaN.B754_nan (f_floor BinarySingleNaN.B754_nan)) with (@BinarySingleNaN.B754_nan 53 1024) by reflexivity.
  assert (Hd : forall x, fdiv x BinarySingleNaN.B754_nan = BinarySingleNaN.B754_nan) by (intros [| | |]; reflexivity).
  rewrite Hd. replace (f_floor BinarySingleNaN.B754_nan) with (@BinarySingleNaN.B754_nan 53 1024) by reflexivity.
  rewrite Hm2, Ha, Hm.
  replace (f_round BinarySingleNaN.B754_nan) with (@BinarySingleNaN.B754_nan 53 1024) by reflexivity.
  rewrite !fge_nan. cbn [orb]. rewrite Hd.
  replace (fsub BinarySingleNaN.B754_nan BinarySingleNaN.B754_nan) with (@BinarySingleNaN.B754_nan 53 1024) by reflexivity.
  replace (flt BinarySingleNaN.B754_nan f_zero) with false by reflexivity.
  replace (fgt BinarySingleNaN.B754_nan f_1em10) with false by reflexivity.
  cbn [andb]. eexists; reflexivity.
Qed.

Lemma fraction_total : forall fuel val nn nd, (100 <= fuel)%nat ->
  (0 <= nn <= 15)%Z -> (0 <= nd <= 15)%Z -> exists r, decimal_to_fraction fuel val nn nd = Ok r.
Proof.
  intros fuel val nn nd HF Hn Hd.
  destruct (f_is_finite val) eqn:F.
  - destruct (feq (snd (f_modf val)) f_zero) eqn:H2.
    { unfold decimal_to_fraction. destruct (if flt val f_zero then _ else _) as [sg z].
      destruct (f_modf val) as [i f]. cbn [snd] in H2. rewrite H2. eauto. }
    destruct (flt (snd (f_modf val)) f_1em9) eqn:H1.
    { unfold decimal_to_fraction. destruct (if flt val f_zero then _ else _) as [sg z].
      destruct (f_modf val) as [i f]. cbn [snd] in *. rewrite H2, H1. eauto. }
    destruct (fgt (snd (f_modf val)) f_1e9) eqn:H3.
    { unfold decimal_to_fraction. destruct (if flt val f_zero then _ else _) as [sg z].
      destruct (f_modf val) as [i f]. cbn [snd] in *. rewrite H2, H1, H3. eauto. }
    destruct (fraction_main fuel val nn nd (fun _ _ => True)) as (n & d & E & _); eauto.
  - do 2 (destruct fuel as [|fuel]; [lia|]).
    destruct val as [s|s| |s m e H]; try discriminate.
    + unfold decimal_to_fraction.
      replace (f_modf (BinarySingleNaN.B754_infinity s)) with (@BinarySingleNaN.B754_infinity 53 1024 s, @BinarySingleNaN.B754_nan 53 1024) by (destruct s; reflexivity).
      destruct s; cbn [flt fneg].
      * replace (flt (BinarySingleNaN.B754_infinity true) f_zero) with true by reflexivity.
        cbv beta iota zeta.
        replace (feq BinarySingleNaN.B754_nan f_zero) with false by reflexivity.
        replace (flt BinarySingleNaN.B754_nan f_1em9) with false by reflexivity.
        replace (fgt BinarySingleNaN.B754_nan f_1e9) with false by reflexivity.
        cbn [frac_loop].
        replace (feq _ _) with true by reflexivity. rewrite andb_false_r. eauto.
      * replace (flt (BinarySingleNaN.B754_infinity false) f_zero) with false by reflexivity.
        cbv beta iota zeta.
        replace (feq BinarySingleNaN.B754_nan f_zero) with false by reflexivity.
        replace (flt BinarySingleNaN.B754_nan f_1em9) with false by reflexivity.
        replace (fgt BinarySingleNaN.B754_nan f_1e9) with false by reflexivity.
        cbn [frac_loop].
        replace (feq _ _) with true by reflexivity. rewrite andb_false_r. eauto.
    + unfold decimal_to_fraction.
      replace (f_modf BinarySingleNaN.B754_nan) with (@BinarySingleNaN.B754_nan 53 1024, @BinarySingleNaN.B754_nan 53 1024) by reflexivity.
      replace (flt BinarySingleNaN.B754_nan f_zero) with false by reflexivity.
      cbv beta iota zeta.
      replace (feq BinarySingleNaN.B754_nan f_zero) with false by reflexivity.
      replace (flt BinarySingleNaN.B754_nan f_1em9) with false by reflexivity.
      replace (fgt BinarySingleNaN.B754_nan f_1e9) with false by reflexivity.
      apply frac_loop_nan.
Qed.

Lemma whole_fraction_total : forall fuel val nn nd, (100 <= fuel)%nat ->
  (0 <= nn <= 15)%Z -> (0 <= nd <= 15)%Z -> exists r, decimal_to_whole_fraction fuel val nn nd = Ok r.
Proof.
  intros. unfold decimal_to_whole_fraction. destruct (f_modf val) as [i f].
  destruct (feq f f_zero); [eauto|].
  destruct (fraction_total fuel (if flt f f_zero then fneg f else f) nn nd) as [[n d] E]; auto.
  rewrite E. simpl. eauto.
Qed.

Lemma fraction_near : forall fuel val nn nd, (101 <= fuel)%nat ->
  f_is_finite val = true -> / IZR (10 ^ 9) < B2R val < 1 ->
  (0 <= nn <= 15)%Z -> (0 <= nd <= 15)%Z ->
  exists n d, decimal_to_fraction fuel val nn nd = Ok (n, d) /\
    (0 <= n < 10 ^ (lim nn))%Z /\ (1 <= d < 10 ^ (lim nd))%Z /\
    Rabs (IZR n - B2R val * IZR d) <= 5 / 8.
Proof.
  intros fuel val nn nd HF F Hv Hn Hd.
  assert (V0 : 0 < / IZR (10 ^ 9)) by (apply Rinv_0_lt_compat; apply (IZR_lt 0); reflexivity).
  destruct (modf_frac val F) as [E1 E2]. destruct f_1em9_val as [_ V2].
  rewrite trunc_small in E1 by lra. rewrite Rminus_0_r in E1.
  assert (H1 : flt (snd (f_modf val)) f_1em9 = false).
  { destruct (flt _ _) eqn:C; auto. apply flt_real in C; auto.
    pose proof (above_1em9 (B2R val) (B2R_format val)). lra. }
  assert (H2 : feq (snd (f_modf val)) f_zero = false).
  { destruct (feq _ _) eqn:C; auto. apply feq_real in C; auto. rewrite f_zero_real in C. lra. }
  destruct (f_of_Z_exact (10 ^ 9)) as [B1 B2]; [vm_compute; intro; discriminate|].
  assert (H3 : fgt (snd (f_modf val)) f_1e9 = false).
  { destruct (fgt _ _) eqn:C; auto. change f_1e9 with (f_of_Z (10 ^ 9)) in C. apply fgt_real in C; auto.
    rewrite B1 in C. change (IZR (10 ^ 9)) with 1000000000 in C. lra. }
  pose proof (lim_range nn Hn) as Ln. pose proof (lim_range nd Hd) as Ld.
  assert (GS : forall N D : Z, (0 <= N < 10 ^ lim nn)%Z -> (1 <= D < 10 ^ lim nd)%Z ->
    N = ZnearestA (RN (B2R val * IZR D)) -> Rabs (IZR N - B2R val * IZR D) <= 5 / 8).
  { intros N D HN HD EN. apply near_good; auto; try lra; try lia.
    pose proof (pow10_15 (lim nn)). lia. }
  destruct (Rle_or_lt (B2R val) (5 / 8)) as [C|C].
  { apply (fraction_main fuel val nn nd (fun N D => Rabs (IZR N - B2R val * IZR D) <= 5 / 8)); auto; [lia|].
    rewrite Rabs_left1; lra. }
  (* the first step gives 1/1 *)
  destruct (frac_start val F H1 H2) as (S1 & S2 & S3).
  unfold decimal_to_fraction. fold (lim nn). fold (lim nd). rewrite S1.
  destruct (f_modf val) as [ip fp]. cbn [snd] in *. rewrite H1, H2, H3.
  destruct fuel as [|fuel]; [lia|]. cbn [frac_loop].
  assert (FL : Zfloor (B2R val) = 0%Z) by (apply Zfloor_imp; change (0 + 1)%Z with 1%Z; lra).
  assert (NZ : B2R val <> IZR (Zfloor (B2R val))) by (rewrite FL; lra).
  destruct (feq val (f_floor val)) eqn:C1; [apply feq_floor in C1; auto; lra|].
  replace (fgt f_one f_1em10) with true by (vm_compute; reflexivity). cbn [andb negb]. cbv zeta.
  destruct (znext_ok val S2 NZ) as (Q1 & Q2 & Q3 & Fz1 & Bz1 & Hz1). unfold znext in *.
  rewrite FL, Rminus_0_r in Q1. rewrite (round_generic radix2 fexp64 ZnearestE) in Q1 by apply B2R_format.
  rewrite Q1 in Q3.
  set (z1 := fdiv f_one (fsub val (f_floor val))) in *.
  destruct f_one_real as [O1 O2].
  assert (ZU : B2R z1 < 2).
  { rewrite Q3. apply Rle_lt_trans with (RN (bpow radix2 (-1) + 1 + / 8)).
    - apply RN_le. apply Rle_trans with (/ (5 / 8)); [apply Rinv_le; lra|]. simpl bpow. lra.
    - replace (bpow radix2 (-1) + 1 + / 8) with (F2R (Float radix2 13 (-3))).
      2: { unfold F2R; simpl. lra. }
      rewrite round_generic; [|typeclasses eauto|apply format_F2R; lia].
      unfold F2R; simpl. lra. }
  assert (FZ : Zfloor (B2R z1) = 1%Z) by (apply Zfloor_imp; change (1 + 1)%Z with 2%Z; lra).
  destruct (dnext_ok z1 f_one f_zero 1 0 Fz1 O2 eq_refl Bz1 O1 f_zero_real) as (Fd1 & _ & _ & Ed1); try lia.
  rewrite FZ in Ed1. destruct Ed1 as [[Ed1 _]|[Ed1 _]]; [|lia].
  change (1 * 1 + 0)%Z with 1%Z in Ed1.
  set (d1 := fadd (fmul f_one (f_floor z1)) f_zero) in *.
  destruct (fmul_correct val d1) as [M1 M2]; auto.
  { rewrite Ed1, Rmult_1_r, Rabs_pos_eq by lra. apply Rle_trans with 1; [lra|].
    change 1 with (bpow radix2 0). apply bpow_le. lia. }
  rewrite Ed1, Rmult_1_r in M1. rewrite (round_generic radix2 fexp64 ZnearestE) in M1 by apply B2R_format.
  assert (NV : ZnearestA (B2R val) = 1%Z).
  { apply Znearest_imp. apply Rabs_lt. lra. }
  set (n1 := f_round (fmul val d1)).
  assert (En1 : B2R n1 = 1) by (unfold n1; rewrite f_round_real, M1, NV; auto).
  assert (Fn1 : f_is_finite n1 = true) by (unfold n1; rewrite f_round_finite; auto).
  assert (TT : forall k, (1 <= k)%Z -> (10 <= 10 ^ k)%Z).
  { intros k Hk. change 10%Z with (10 ^ 1)%Z at 1. apply Z.pow_le_mono_r; lia. }
  pose proof (TT _ (proj1 Ln)). pose proof (TT _ (proj1 Ld)).
  pose proof (pow10_15 (lim nn)). pose proof (pow10_15 (lim nd)).
  assert (T : (10 ^ 15 < 2 ^ 53)%Z) by reflexivity.
  destruct (f_of_Z_exact (10 ^ lim nn)) as [X1 X2]; [lia|].
  destruct (f_of_Z_exact (10 ^ lim nd)) as [Y1 Y2]; [lia|].
  assert (G1 : fge n1 (f_of_Z (10 ^ lim nn)) = false).
  { destruct (fge _ _) eqn:Q; auto. apply fge_real in Q; auto. rewrite En1, X1 in Q.
    apply (IZR_le 10) in H. lra. }
  assert (G2 : fge d1 (f_of_Z (10 ^ lim nd)) = false).
  { destruct (fge d1 _) eqn:Q; auto. apply fge_real in Q; auto. rewrite Ed1, Y1 in Q.
    apply (IZR_le 10) in H0. lra. }
  rewrite G1, G2. cbn [orb].
  apply (frac_loop_ok val (lim nn) (lim nd) F S3) with (good := fun N D => Rabs (IZR N - B2R val * IZR D) <= 5 / 8)
     (D := 1%Z) (LD := 1%Z) (N := 1%Z); auto; try lia.
  - apply Rabs_le. lra.
  - pose proof (fuel_enough fuel). lia.
Qed.

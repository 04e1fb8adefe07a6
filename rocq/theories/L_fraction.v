(** * L_fraction: how close the fraction approximation comes (numbers.go).
    The loop follows the continued fraction of the value.  With [t = D v - P] and [t' = LD v - LP]
    for the current and the previous convergent P/D and LP/LD, exact arithmetic would give
    [t = - f t'], where f is the fractional part of the current quotient; the rounding of the
    quotients adds an error that grows at most like D (D + LD). *)
From Verif Require Import GoBase GoFloat L_base L_float M_numbers L_numbers.
From Coq Require Import Reals Lra Psatz.
From Flocq Require Import Core Relative IEEE754.BinarySingleNaN.
Open Scope R_scope.

Local Opaque fadd fsub fmul fdiv f_floor f_round f_trunc f_of_Z f_1em9 f_1e9 f_1em10 f_one.

Lemma RN_rel : forall x, 1 <= x -> Rabs (RN x - x) <= bpow radix2 (-53) * x.
Proof.
  intros x H. pose proof (relative_error_N radix2 fexp64 (-1000) 53) as R.
  assert (K : forall k : Z, (-1000 < k)%Z -> (53 <= k - fexp64 k)%Z) by (intros k Hk; unfold fexp64, SpecFloat.fexp, SpecFloat.emin; lia).
  assert (L : bpow radix2 (-1000) <= Rabs x).
  { rewrite Rabs_pos_eq by lra. apply Rle_trans with (bpow radix2 0); [apply bpow_le; lia|simpl; lra]. }
  specialize (R K (fun x => negb (Z.even x)) x L).
  rewrite (Rabs_pos_eq x) in R by lra. change (- (53) + 1)%Z with (-52)%Z in R. replace (bpow radix2 (-53)) with (/ 2 * bpow radix2 (-52)); [exact R|].
  change (-53)%Z with (-1 + -52)%Z. rewrite bpow_plus. f_equal.
Qed.
Lemma RN_abs_err : forall x, Rabs x <= bpow radix2 10 -> Rabs (RN x - x) <= bpow radix2 (-43).
Proof.
  intros x H. assert (VV : Valid_exp fexp64) by typeclasses eauto. assert (MM : Monotone_exp fexp64) by typeclasses eauto.
  apply Rle_trans with (/ 2 * ulp radix2 fexp64 x); [apply error_le_half_ulp; auto|].
  assert (ulp radix2 fexp64 x <= ulp radix2 fexp64 (bpow radix2 10)).
  { apply ulp_le; auto. rewrite (Rabs_pos_eq (bpow radix2 10)) by apply bpow_ge_0. auto. }
  rewrite ulp_bpow in H0. change (fexp64 (10 + 1)) with (-42)%Z in H0. change (-43)%Z with (-1 + -42)%Z. rewrite bpow_plus. change (bpow radix2 (-1)) with (/ 2). lra.
Qed.
Lemma f_1em10_val : f_is_finite f_1em10 = true /\ B2R f_1em10 <= 11 / 10 * / IZR (10 ^ 10).
Proof.
  split; [vm_compute; reflexivity|]. rewrite <- (SF2R_B2SF).
  assert (E : B2SF f_1em10 = SpecFloat.S754_finite false 7737125245533627 (-86)) by (vm_compute; reflexivity).
  rewrite E. cbn [SF2R cond_Zopp]. unfold F2R. cbn [Fnum Fexp].
  change (bpow radix2 (-86)) with (/ 77371252455336267181195264). change (IZR (10 ^ 10)) with 10000000000. lra.
Qed.

(** the exact quotient step *)
Lemma znext_val : forall z, frac_ok z -> B2R z <> IZR (Zfloor (B2R z)) ->
  let f := B2R z - IZR (Zfloor (B2R z)) in
  0 < f < 1 /\ f_is_finite (znext z) = true /\ 1 <= B2R (znext z) <= bpow radix2 60 /\ frac_ok (znext z) /\ Rabs (B2R (znext z) * f - 1) <= bpow radix2 (-53) /\ B2R (znext z) = RN (/ f).
Proof.
  intros z Hz N. cbv zeta. destruct (znext_ok z Hz N) as (R1 & R2 & R3 & R4 & R5 & R6). cbv zeta in *. destruct Hz as (F & P & _).
  assert (G : RN (B2R z - IZR (Zfloor (B2R z))) = B2R z - IZR (Zfloor (B2R z))).
  { apply round_generic; [typeclasses eauto|]. rewrite <- (Ztrunc_floor (B2R z)) by lra. apply frac_exact. apply B2R_format. }
  rewrite G in R1. rewrite R1 in R2, R3. set (f := B2R z - IZR (Zfloor (B2R z))) in *. pose proof (Zfloor_ub (B2R z)).
  split; [split; [lra|unfold f; lra]|]. split; [auto|]. split; [auto|]. split; [auto|].
  split; [|exact R3]. rewrite R3. assert (I : 1 <= / f) by (rewrite <- Rinv_1; apply Rinv_le; lra). pose proof (RN_rel (/ f) I) as E.
  replace (RN (/ f) * f - 1) with ((RN (/ f) - / f) * f) by (field; lra). rewrite Rabs_mult, (Rabs_pos_eq f) by lra.
  apply Rle_trans with (bpow radix2 (-53) * / f * f); [apply Rmult_le_compat_r; lra|]. rewrite Rmult_assoc, Rinv_l by lra. lra.
Qed.

(** one step of the continued fraction, over the reals *)
Definition w52 : R := bpow radix2 (-52).
Lemma w52_pos : 0 < w52. Proof. apply bpow_gt_0. Qed.
Lemma step_real : forall v z1 f f1 r t t' (a D LD P LP : Z),
  t = IZR D * v - IZR P -> t' = IZR LD * v - IZR LP -> t = r - f * t' ->
  z1 = IZR a + f1 -> 0 <= f1 < 1 -> (1 <= a)%Z -> Rabs (z1 * f - 1) <= bpow radix2 (-53) -> Rabs t' <= 2 ->
  (1 <= D)%Z -> (0 <= LD <= D)%Z -> Z.abs (P * LD - LP * D) = 1%Z ->
  Rabs r <= w52 * IZR (D * (D + LD)) -> (LD = 0%Z -> r = 0) ->
  let D1 := (D * a + LD)%Z in let P1 := (P * a + LP)%Z in
  exists r1, IZR D1 * v - IZR P1 = r1 - f1 * t /\ Rabs r1 <= w52 * IZR (D1 * (D1 + D)) /\
    Z.abs (P1 * D - P * D1) = 1%Z /\ Rabs t <= / IZR D1 + w52 + 2 * Rabs r /\ (IZR D1 + IZR D * f1) * Rabs t <= 1 + IZR D * Rabs r1.
Proof.
  intros v z1 f f1 r t t' a D LD P LP Et Et' Er Ez Hf1 Ha Hz Ht' HD HL HP Hr H0. cbv zeta. set (D1 := (D * a + LD)%Z). set (P1 := (P * a + LP)%Z).
  pose proof w52_pos as W. assert (W2 : bpow radix2 (-53) * 2 = w52) by (unfold w52; change (-52)%Z with (-53 + 1)%Z; rewrite bpow_plus; reflexivity).
  assert (RD : 1 <= IZR D) by (apply (IZR_le 1); lia). assert (RA : 1 <= IZR a) by (apply (IZR_le 1); lia). assert (RL : 0 <= IZR LD <= IZR D) by (split; [apply (IZR_le 0)|apply IZR_le]; lia).
  assert (ED1 : IZR D1 = IZR D * IZR a + IZR LD) by (unfold D1; rewrite plus_IZR, mult_IZR; reflexivity).
  assert (EP1 : IZR P1 = IZR P * IZR a + IZR LP) by (unfold P1; rewrite plus_IZR, mult_IZR; reflexivity).
  exists (t' + z1 * t).
  assert (RE : t' + z1 * t = t' * (1 - z1 * f) + z1 * r) by (rewrite Er; ring).
  assert (B1 : Rabs (t' + z1 * t) <= w52 + z1 * Rabs r).
  { rewrite RE. apply Rle_trans with (1 := Rabs_triang _ _). rewrite !Rabs_mult. rewrite (Rabs_pos_eq z1) by lra. apply Rplus_le_compat_r.
    rewrite <- W2. rewrite Rmult_comm. apply Rmult_le_compat; try apply Rabs_pos; auto. replace (1 - z1 * f) with (- (z1 * f - 1)) by ring. rewrite Rabs_Ropp. auto. }
  assert (Z1 : z1 <= IZR a + 1) by lra. pose proof (Rabs_pos r) as PR.
  assert (D1D : IZR D <= IZR D1) by nra.
  assert (PD : (P1 * D - P * D1 = - (P * LD - LP * D))%Z) by (unfold P1, D1; ring).
  split; [rewrite ED1, EP1, Et', Et, Ez; ring|]. split; [|split].
  - apply Rle_trans with (1 := B1).
    assert (GI : Rabs r * z1 <= w52 * IZR (D1 * (D1 + D) - 1)).
    { destruct (Z.eq_dec LD 0) as [C|C].
      - rewrite (H0 C), Rabs_R0, Rmult_0_l. apply Rmult_le_pos; [lra|]. apply (IZR_le 0). unfold D1. nia.
      - apply Rle_trans with (w52 * IZR (D * (D + LD)) * (IZR a + 1)).
        + apply Rmult_le_compat; auto; lra.
        + rewrite Rmult_assoc. apply Rmult_le_compat_l; [lra|]. rewrite <- (plus_IZR a 1), <- mult_IZR. apply IZR_le. unfold D1.
          assert (X : ((D * a + LD) * (D * a + LD + D) - 1 - D * (D + LD) * (a + 1) = (a + 1) * (a - 1) * (D * D) + a * (D * LD) + LD * LD - 1)%Z) by ring.
          assert (0 <= (a + 1) * (a - 1) * (D * D))%Z by (repeat apply Z.mul_nonneg_nonneg; lia). assert (0 <= a * (D * LD))%Z by (repeat apply Z.mul_nonneg_nonneg; lia). assert (1 <= LD * LD)%Z by nia. lia. }
    replace (IZR (D1 * (D1 + D))) with (IZR (D1 * (D1 + D) - 1) + 1) by (rewrite minus_IZR; lra). nra.
  - rewrite PD. lia.
  - assert (DT : IZR D1 * t - IZR D * (IZR D1 * v - IZR P1) = IZR (P1 * D - P * D1)) by (rewrite Et, minus_IZR, !mult_IZR; ring).
    assert (T1 : IZR D1 * v - IZR P1 = (t' + z1 * t) - f1 * t) by (rewrite ED1, EP1, Et', Et, Ez; ring). rewrite T1 in DT.
    set (s := (P1 * D - P * D1)%Z) in *. assert (SA : Rabs (IZR s) = 1) by (rewrite <- abs_IZR; rewrite PD; rewrite Z.abs_opp; rewrite HP; reflexivity).
    assert (Q : (IZR D1 + IZR D * f1) * t = IZR s + IZR D * (t' + z1 * t)) by lra.
    assert (Q0 : (IZR D1 + IZR D * f1) * Rabs t <= 1 + IZR D * Rabs (t' + z1 * t)).
    { rewrite <- (Rabs_pos_eq (IZR D1 + IZR D * f1)) by nra. rewrite <- Rabs_mult, Q. apply Rle_trans with (1 := Rabs_triang _ _). rewrite SA, Rabs_mult, (Rabs_pos_eq (IZR D)) by lra. lra. }
    assert (QA : (IZR D1 + IZR D * f1) * Rabs t <= 1 + IZR D * (w52 + z1 * Rabs r)).
    { apply Rle_trans with (1 := Q0). apply Rplus_le_compat_l. apply Rmult_le_compat_l; lra. }
    split; [|exact Q0].
    pose proof (Rabs_pos t) as PT.
    assert (QB : IZR D1 * Rabs t <= 1 + IZR D1 * w52 + 2 * IZR D1 * Rabs r).
    { assert (DF : 0 <= IZR D * f1) by (apply Rmult_le_pos; lra). apply Rle_trans with ((IZR D1 + IZR D * f1) * Rabs t); [apply Rmult_le_compat_r; lra|]. apply Rle_trans with (1 := QA).
      assert (ZA : IZR D * z1 <= 2 * IZR D1) by (apply Rle_trans with (IZR D * (IZR a + 1)); [apply Rmult_le_compat_l; lra|nra]). assert (IZR D * w52 <= IZR D1 * w52) by (apply Rmult_le_compat_r; lra).
      apply (Rmult_le_compat_r _ _ _ PR) in ZA. lra. }
    apply Rmult_le_reg_l with (IZR D1); [lra|]. apply Rle_trans with (1 := QB). right. field. lra.
Qed.

(** the loop *)
Section loop.
Context (val : f64) (nn nd : Z).
Context (Fv : f_is_finite val = true) (Pv : 0 < B2R val < 1).
Context (Hn : (1 <= nn <= 15)%Z) (Hd : (1 <= nd <= 3)%Z).
Local Notation v := (B2R val).
Definition lo : Z := Z.min (10 ^ nn) (10 ^ nd).
Definition close (n d : Z) : Prop := Z.gcd n d = 1%Z /\ (Rabs (IZR n - v * IZR d) <= / IZR lo + 9 / 10 * / IZR (10 ^ 9) \/ Rabs (v - IZR n / IZR d) <= 2 * / IZR (10 ^ 10)).

Lemma small_r : forall r D LD, (1 <= D < 10 ^ nd)%Z -> (0 <= LD <= D)%Z -> Rabs r <= w52 * IZR (D * (D + LD)) ->
  Rabs r <= w52 * 2000000.
Proof.
  intros r D LD HD HL H. apply Rle_trans with (1 := H). pose proof w52_pos. apply Rmult_le_compat_l; [lra|]. apply IZR_le.
  assert (10 ^ nd <= 10 ^ 3)%Z by (apply Z.pow_le_mono_r; lia). change (10 ^ 3)%Z with 1000%Z in *. nia.
Qed.
Lemma w52_val : w52 = / 4503599627370496. Proof. reflexivity. Qed.

Lemma frac_loop_close : forall fuel z diff denom numer lden lnum (D LD P LP : Z) r,
  frac_ok z -> f_is_finite denom = true -> f_is_finite numer = true -> f_is_finite lden = true ->
  B2R denom = IZR D -> B2R lden = IZR LD -> B2R numer = IZR P ->
  (1 <= D < 10 ^ nd)%Z -> (0 <= LD <= D)%Z -> (0 <= P < 10 ^ nn)%Z ->
  (fgt diff f_1em10 = false -> Rabs (v - IZR P / IZR D) <= 2 * / IZR (10 ^ 10)) ->
  IZR D * v - IZR P = r - (B2R z - IZR (Zfloor (B2R z))) * (IZR LD * v - IZR LP) -> Rabs r <= w52 * IZR (D * (D + LD)) -> (LD = 0%Z -> r = 0 /\ P = 0%Z /\ LP = 1%Z) ->
  Rabs (IZR LD * v - IZR LP) <= 2 -> Z.abs (P * LD - LP * D) = 1%Z ->
  (2 ^ Z.of_nat fuel * (2 * 10 ^ 15) < 3 ^ Z.of_nat fuel * (D + LD))%Z ->
  exists n d, frac_loop fuel val (f_of_Z (10 ^ nn)) (f_of_Z (10 ^ nd)) 1 z diff denom numer lden lnum
              = Ok (n, d) /\ (0 <= n < 10 ^ nn)%Z /\ (1 <= d < 10 ^ nd)%Z /\ close n d.
Proof.
  pose proof (pow10_15 nn ltac:(lia)) as Bn. pose proof (pow10_15 nd ltac:(lia)) as Bd.
  assert (T : (10 ^ 15 < 2 ^ 50)%Z) by reflexivity. assert (T2 : (2 ^ 50 < 2 ^ 53)%Z) by reflexivity. assert (T63 : (2 ^ 53 < two63)%Z) by reflexivity.
  assert (B3 : (10 ^ nd <= 1000)%Z) by (change 1000%Z with (10 ^ 3)%Z; apply Z.pow_le_mono_r; lia).
  assert (LO : (10 <= lo)%Z). { unfold lo. assert (10 ^ 1 <= 10 ^ nn)%Z by (apply Z.pow_le_mono_r; lia). assert (10 ^ 1 <= 10 ^ nd)%Z by (apply Z.pow_le_mono_r; lia). lia. }
  assert (RLO : 10 <= IZR lo) by (apply (IZR_le 10); auto). assert (ILO : 0 < / IZR lo) by (apply Rinv_0_lt_compat; lra).
  assert (E42 : bpow radix2 (-42) = / 4398046511104) by reflexivity. assert (I9 : / IZR (10 ^ 9) = / 1000000000) by reflexivity.
  assert (toint : forall x k, f_is_finite x = true -> B2R x = IZR k -> (0 <= k < 2 ^ 53)%Z -> f_to_int64 x = k).
  { intros x k Fx Ex Bk. rewrite f_to_int64_trunc; auto; rewrite Ex, Ztrunc_IZR; unfold two63 in *; lia. }
  induction fuel; intros z diff denom numer lden lnum D LD P LP r Hz Fd Fnu Fl ED EL EN BD BL BN HDF Hr HrB Hr0 HT' HP HM.
  - exfalso. change (Z.of_nat 0) with 0%Z in HM. rewrite !Z.pow_0_r in HM. lia.
  - cbn [frac_loop]. pose proof (small_r r D LD BD BL HrB) as HrS. rewrite w52_val in HrS.
    assert (GCD : Z.gcd P D = 1%Z).
    { assert (DV : (Z.gcd P D | 1)%Z). { replace 1%Z with (Z.abs (P * LD - LP * D)) by exact HP. apply Z.divide_abs_r. apply Z.divide_sub_r; [apply Z.divide_mul_l, Z.gcd_divide_l|apply Z.divide_mul_r, Z.gcd_divide_r]. }
      apply Z.divide_1_r_nonneg in DV; [auto|apply Z.gcd_nonneg]. }
    assert (PTH : IZR P - v * IZR D = - (IZR D * v - IZR P)) by ring.
    destruct (fgt diff f_1em10 && negb (feq z (f_floor z))) eqn:C.
    2: { exists P, D. split; [rewrite (toint numer P), (toint denom D) by (auto; lia); f_equal; f_equal; lia|]. split; [auto|]. split; [auto|]. split; [exact GCD|].
         apply andb_false_iff in C as [C|C]; [right; auto|]. left. apply negb_false_iff in C. apply feq_floor in C; [|apply Hz]. replace (B2R z - IZR (Zfloor (B2R z))) with 0 in Hr by lra. rewrite Rmult_0_l, Rminus_0_r in Hr.
         rewrite PTH, Rabs_Ropp, Hr, I9. lra. }
    apply andb_true_iff in C as [_ C]. apply negb_true_iff in C.
    assert (NZ : B2R z <> IZR (Zfloor (B2R z))).
    { intros E. apply feq_floor in E; [congruence|apply Hz]. }
    destruct (znext_val z Hz NZ) as (Hf & Fz1 & Bz1 & Hz1 & Ez1 & Rz1). unfold znext in *.
    set (z1 := fdiv f_one (fsub z (f_floor z))) in *. set (f := B2R z - IZR (Zfloor (B2R z))) in *.
    destruct (dnext_ok z1 denom lden D LD Fz1 Fd Fl Bz1 ED EL) as (Fd1 & F1 & Bd1 & Ed1); try lia.
    set (F := Zfloor (B2R z1)) in *. set (d1 := fadd (fmul denom (f_floor z1)) lden) in *.
    assert (Bv1 : 0 <= v * B2R d1 <= bpow radix2 180).
    { split; [nra|]. apply Rle_trans with (1 * bpow radix2 120); [apply Rmult_le_compat; lra|]. rewrite Rmult_1_l. apply bpow_le. lia. }
    assert (BB : bpow radix2 180 <= bpow radix2 1023) by (apply bpow_le; lia).
    destruct (fmul_correct val d1) as [E1 E2]; auto.
    { rewrite Rabs_pos_eq; lra. }
    set (n1 := f_round (fmul val d1)).
    assert (Fn1 : f_is_finite n1 = true) by (unfold n1; rewrite f_round_finite; auto).
    assert (En1 : B2R n1 = IZR (ZnearestA (RN (v * B2R d1)))) by (unfold n1; rewrite f_round_real, E1; auto).
    destruct (f_of_Z_exact (10 ^ nn)) as [X1 X2]; [lia|].
    destruct (f_of_Z_exact (10 ^ nd)) as [Y1 Y2]; [lia|].
    cbv zeta. fold z1. fold d1. fold n1.
    set (D1 := (D * F + LD)%Z) in *. set (P1 := (P * F + LP)%Z).
    destruct (step_real v (B2R z1) f (B2R z1 - IZR F) r (IZR D * v - IZR P) (IZR LD * v - IZR LP) F D LD P LP eq_refl eq_refl Hr) as (r1 & S1 & S2 & S3 & S4 & S5); auto; try lia.
    { ring. } { pose proof (Zfloor_lb (B2R z1)). pose proof (Zfloor_ub (B2R z1)). fold F in H, H0. lra. }
    { intros Q. apply (Hr0 Q). }
    fold D1 in S1, S2, S3, S4, S5. fold P1 in S1, S3. rewrite w52_val in S4.
    assert (D1D : (D <= D1)%Z) by (unfold D1; nia).
    assert (RD1 : 1 <= IZR D1) by (apply (IZR_le 1); lia).
    destruct (fge n1 (f_of_Z (10 ^ nn)) || fge d1 (f_of_Z (10 ^ nd))) eqn:C2.
    { exists P, D. split; [rewrite (toint numer P), (toint denom D) by (auto; lia); f_equal; f_equal; lia|]. split; [auto|]. split; [auto|]. split; [exact GCD|]. left. rewrite PTH, Rabs_Ropp.
      assert (LB : (lo <= D1)%Z).
      { destruct Ed1 as [[Ed1 Bd2]|[Bd2 _]]; [|unfold lo; lia]. apply orb_true_iff in C2 as [C2|C2]; apply fge_real in C2; auto.
        - rewrite X1, En1, Ed1 in C2. apply Rge_le in C2. apply le_IZR in C2.
          assert (LV : RN (v * IZR D1) <= IZR D1). { rewrite <- (RN_Z D1) at 2 by lia. apply RN_le. nra. }
          pose proof (Znearest_half (Z.leb 0) (RN (v * IZR D1))) as Hh. apply Rabs_le_inv in Hh. apply IZR_le in C2.
          assert (IZR (10 ^ nn) < IZR (D1 + 1)) by (rewrite plus_IZR; lra). apply lt_IZR in H. unfold lo. lia.
        - rewrite Y1, Ed1 in C2. apply Rge_le in C2. apply le_IZR in C2. unfold lo. lia. }
      assert (IL : / IZR D1 <= / IZR lo) by (apply Rinv_le; [lra|apply IZR_le; auto]). rewrite I9. lra. }
    apply orb_false_iff in C2 as [C3 C4].
    apply fge_real_false in C3; auto. apply fge_real_false in C4; auto.
    rewrite X1, En1 in C3. apply lt_IZR in C3. rewrite Y1 in C4.
    destruct Ed1 as [[Ed1 Bd2]|[_ Ed1]].
    2: { exfalso. assert (IZR (2 ^ 53) < IZR (10 ^ nd)) by lra. apply lt_IZR in H. lia. }
    rewrite Ed1 in C4. apply lt_IZR in C4. rewrite Ed1 in En1, C3.
    assert (N0 : (0 <= ZnearestA (RN (v * IZR D1)))%Z).
    { apply ZnearestA_ge. rewrite <- RN_0. apply RN_le. nra. }
    set (N1 := ZnearestA (RN (v * IZR D1))) in *.
    assert (RDU : IZR D1 <= 1000) by (apply IZR_le; lia). assert (B10 : bpow radix2 10 = 1024) by reflexivity.
    assert (VD : Rabs (RN (v * IZR D1) - v * IZR D1) <= bpow radix2 (-43)). { apply RN_abs_err. rewrite Rabs_pos_eq by nra. rewrite B10. nra. }
    assert (B43 : bpow radix2 (-43) = / 8796093022208) by reflexivity.
    assert (HrS1 : Rabs r1 <= w52 * 2000000) by (apply (small_r r1 D1 D); [lia|lia|exact S2]). rewrite w52_val in HrS1.
    assert (N1P : N1 = P1).
    { destruct (Z.eq_dec D1 1) as [O|O].
      - assert (D = 1 /\ F = 1 /\ LD = 0)%Z as (-> & F0 & L0) by (unfold D1 in O; nia). destruct (Hr0 L0) as (R0 & -> & ->).
        assert (P1 = 1%Z) as -> by (unfold P1; rewrite F0; reflexivity). rewrite L0, R0 in Hr. assert (FV : f = v) by lra.
        assert (VH : / 2 < v).
        { destruct (Rlt_or_le (/ 2) v) as [V|V]; auto. exfalso. assert (2 <= B2R z1). { rewrite Rz1, FV. rewrite <- (RN_Z 2) by lia. apply RN_le. apply Rle_trans with (/ / 2); [lra|]. apply Rinv_le; lra. }
          assert (2 <= F)%Z by (apply Zfloor_lub; exact H). lia. }
        unfold N1. rewrite O, Rmult_1_r. rewrite (round_generic radix2 fexp64 ZnearestE) by apply B2R_format. apply Znearest_imp. apply Rabs_lt. lra.
      - assert (RD2 : 2 <= IZR D1) by (apply (IZR_le 2); lia). assert (RDD : 1 <= IZR D <= 1000) by (split; [apply (IZR_le 1)|apply IZR_le]; lia).
        pose proof (Zfloor_lb (B2R z1)) as FL. pose proof (Zfloor_ub (B2R z1)) as FU. fold F in FL, FU. set (f1 := B2R z1 - IZR F) in *.
        assert (Hf1 : 0 <= f1 < 1) by (unfold f1; lra). pose proof (Rabs_pos (IZR D * v - IZR P)) as PT. pose proof (Rabs_pos r1) as PR1.
        assert (DR : IZR D * Rabs r1 <= / 1000) by (apply Rle_trans with (1000 * (/ 4503599627370496 * 2000000)); [apply Rmult_le_compat; lra|lra]).
        assert (T25 : (2 + f1) * Rabs (IZR D * v - IZR P) <= 1 + / 1000).
        { apply Rle_trans with ((IZR D1 + IZR D * f1) * Rabs (IZR D * v - IZR P)); [|lra]. apply Rmult_le_compat_r; auto. apply Rplus_le_compat; [lra|]. nra. }
        assert (T26 : f1 * Rabs (IZR D * v - IZR P) <= 2 / 5) by nra.
        assert (T1 : Rabs (IZR D1 * v - IZR P1) <= 2 / 5 + / 4503599627370496 * 2000000).
        { rewrite S1. apply Rle_trans with (Rabs r1 + Rabs (f1 * (IZR D * v - IZR P))).
          - unfold Rminus. rewrite <- (Rabs_Ropp (f1 * _)). apply Rabs_triang.
          - rewrite Rabs_mult, (Rabs_pos_eq f1) by lra. lra. }
        unfold N1. apply Znearest_imp. apply Rabs_le_inv in T1. apply Rabs_le_inv in VD. apply Rabs_lt. lra. }
    assert (TL : Rabs (IZR D * v - IZR P) <= 2). { assert (/ IZR D1 <= 1) by (rewrite <- Rinv_1; apply Rinv_le; lra). lra. }
    (* the difference *)
    assert (ND1 : (N1 <= D1)%Z).
    { assert (LV : RN (v * IZR D1) <= IZR D1). { rewrite <- (RN_Z D1) at 2 by lia. apply RN_le. nra. }
      pose proof (Znearest_half (Z.leb 0) (RN (v * IZR D1))) as Hh. apply Rabs_le_inv in Hh. fold N1 in Hh. assert (IZR N1 < IZR (D1 + 1)) by (rewrite plus_IZR; lra). apply lt_IZR in H. lia. }
    assert (RN1 : 0 <= IZR N1 <= IZR D1) by (split; [apply (IZR_le 0)|apply IZR_le]; lia).
    assert (QT : 0 <= IZR N1 / IZR D1 <= 1). { split; [apply Rle_div_of; lra|apply Rdiv_le_of; lra]. }
    assert (BIG : 2 <= bpow radix2 1023) by (change 2 with (bpow radix2 1); apply bpow_le; lia).
    destruct (fdiv_correct n1 d1) as [V1 V2]; auto. { rewrite Ed1. lra. } { rewrite En1, Ed1. rewrite Rabs_pos_eq; lra. }
    rewrite En1, Ed1 in V1.
    assert (VQ : Rabs (RN (IZR N1 / IZR D1) - IZR N1 / IZR D1) <= bpow radix2 (-43)). { apply RN_abs_err. rewrite Rabs_pos_eq by lra. rewrite B10. lra. }
    pose proof (Rabs_le_inv _ _ VQ) as VQ'.
    assert (SB : Rabs (v - RN (IZR N1 / IZR D1)) <= 2). { apply Rabs_le. lra. }
    destruct (fsub_correct val (fdiv n1 d1)) as [U1 U2]; auto. { rewrite V1. lra. }
    rewrite V1 in U1.
    assert (UE : Rabs (RN (v - RN (IZR N1 / IZR D1)) - (v - RN (IZR N1 / IZR D1))) <= bpow radix2 (-43)). { apply RN_abs_err. rewrite B10. lra. }
    set (df := fsub val (fdiv n1 d1)) in *.
    assert (DFF : f_is_finite (if flt df f_zero then fneg df else df) = true /\ B2R (if flt df f_zero then fneg df else df) = Rabs (B2R df)).
    { destruct (flt df f_zero) eqn:CF.
      - apply flt_real in CF; auto. rewrite f_zero_real in CF. split; [unfold fneg; rewrite <- U2; apply is_finite_Bopp|]. unfold fneg. rewrite B2R_Bopp. rewrite Rabs_left; lra.
      - apply flt_real_false in CF; auto. rewrite f_zero_real in CF. split; auto. rewrite Rabs_pos_eq; lra. }
    destruct DFF as [DF1 DF2].
    assert (DF : (D <= D * F)%Z) by (apply Z.le_mul_diag_r; lia).
    rewrite <- N1P in *.
    apply (IHfuel z1 _ d1 n1 denom numer D1 D N1 P r1); auto; try lia.
    + intros CD. destruct f_1em10_val as [K1 K2]. apply fgt_real_false in CD; auto. rewrite DF2, U1 in CD.
      pose proof (Rabs_le_inv _ _ UE) as UE'. assert (CD' : Rabs (RN (v - RN (IZR N1 / IZR D1))) <= 11 / 10 * / IZR (10 ^ 10)) by lra. apply Rabs_le_inv in CD'.
      change (IZR (10 ^ 10)) with 10000000000 in *. apply Rabs_le. lra.
    + rewrite Nat2Z.inj_succ, !Z.pow_succ_r in HM by lia.
      assert (P3 : (0 < 3 ^ Z.of_nat fuel)%Z) by (apply Z.pow_pos_nonneg; lia).
      assert (Q3 : (3 * (D + LD) <= 2 * (D1 + D))%Z) by (unfold D1; lia).
      apply (Z.mul_le_mono_nonneg_l _ _ (3 ^ Z.of_nat fuel)) in Q3; [|lia].
      set (DD := (D1 + D)%Z) in *. set (E0 := (D + LD)%Z) in *.
      set (p3 := (3 ^ Z.of_nat fuel)%Z) in *. set (p2 := (2 ^ Z.of_nat fuel)%Z) in *.
      clearbody p2 p3 DD E0. clear - HM Q3. nia.
Qed.
End loop.

Lemma fraction_close : forall fuel val nn nd, (101 <= fuel)%nat ->
  f_is_finite val = true -> / IZR (10 ^ 9) < B2R val < 1 -> (0 <= nn <= 15)%Z -> (0 <= nd <= 3)%Z ->
  exists n d, decimal_to_fraction fuel val nn nd = Ok (n, d) /\
    (0 <= n < 10 ^ (lim nn))%Z /\ (1 <= d < 10 ^ (lim nd))%Z /\ Z.gcd n d = 1%Z /\
    Rabs (B2R val - IZR n / IZR d) <= / (IZR d * IZR (10 ^ Z.min (lim nn) (lim nd))) + / IZR (10 ^ 9).
Proof.
  intros fuel val nn nd HF F Hv Hn Hd.
  assert (V0 : 0 < / IZR (10 ^ 9)) by (apply Rinv_0_lt_compat; apply (IZR_lt 0); reflexivity).
  destruct (modf_frac val F) as [E1 E2]. destruct f_1em9_val as [_ V2].
  rewrite trunc_small in E1 by lra. rewrite Rminus_0_r in E1.
  assert (H1 : flt (snd (f_modf val)) f_1em9 = false).
  { destruct (flt _ _) eqn:C; auto. apply flt_real in C; auto.
    pose proof (above_1em9 (B2R val) (B2R_format val)). lra. }
  assert (H2 : feq (snd (f_modf val)) f_zero = false).
  { destruct (feq _ _) eqn:C; auto. apply feq_real in C; auto. rewrite f_zero_real in C. lra. }
  destruct (f_of_Z_exact (10 ^ 9)) as [B1 B2]; [vm_compute; intro; discriminate|].
  assert (H3 : fgt (snd (f_modf val)) f_1e9 = false).
  { destruct (fgt _ _) eqn:C; auto. change f_1e9 with (f_of_Z (10 ^ 9)) in C. apply fgt_real in C; auto.
    rewrite B1 in C. change (IZR (10 ^ 9)) with 1000000000 in C. lra. }
  pose proof (lim_range nn Hn) as Ln. assert (Ld : (1 <= lim nd <= 3)%Z) by (unfold lim; destruct (Z.eqb_spec nd 0); lia).
  destruct (frac_start val F H1 H2) as (S1 & S2 & S3).
  assert (FL : Zfloor (B2R val) = 0%Z) by (apply Zfloor_imp; change (0 + 1)%Z with 1%Z; lra).
  assert (TT : forall k, (1 <= k)%Z -> (10 <= 10 ^ k)%Z).
  { intros k Hk. change 10%Z with (10 ^ 1)%Z at 1. apply Z.pow_le_mono_r; lia. }
  pose proof (TT _ (proj1 Ln)). pose proof (TT _ (proj1 Ld)). destruct f_one_real as [O1 O2].
  assert (X : exists n d, decimal_to_fraction fuel val nn nd = Ok (n, d) /\ (0 <= n < 10 ^ lim nn)%Z /\ (1 <= d < 10 ^ lim nd)%Z /\ close val (lim nn) (lim nd) n d).
  { unfold decimal_to_fraction. fold (lim nn). fold (lim nd). rewrite S1. destruct (f_modf val) as [ip fp]. cbn [snd] in *. rewrite H1, H2, H3.
    apply (frac_loop_close val (lim nn) (lim nd)) with (D := 1%Z) (LD := 0%Z) (P := 0%Z) (LP := 1%Z) (r := 0); auto; try lia; try lra.
    - intros C. exfalso. assert (C1 : fgt f_one f_1em10 = true) by (vm_compute; reflexivity). congruence.
    - rewrite FL. ring.
    - rewrite Rabs_R0. apply Rmult_le_pos; [pose proof w52_pos; lra|apply (IZR_le 0); lia].
    - rewrite Rmult_0_l. rewrite Rabs_left; lra.
    - pose proof (fuel_enough fuel). lia. }
  destruct X as (n & d & E & N & D & G & C). exists n, d. split; [exact E|]. split; [exact N|]. split; [exact D|]. split; [exact G|].
  assert (RD : 1 <= IZR d) by (apply (IZR_le 1); lia). change (IZR (10 ^ 9)) with 1000000000 in *.
  assert (LO : lo (lim nn) (lim nd) = (10 ^ Z.min (lim nn) (lim nd))%Z).
  { unfold lo. destruct (Z.min_spec (lim nn) (lim nd)) as [[Q ->]|[Q ->]]; [apply Z.min_l|apply Z.min_r]; apply Z.pow_le_mono_r; lia. }
  assert (RL : 1 <= IZR (lo (lim nn) (lim nd))) by (rewrite LO; apply (IZR_le 1); assert (0 < 10 ^ Z.min (lim nn) (lim nd))%Z by (apply Z.pow_pos_nonneg; lia); lia).
  rewrite <- LO. set (L := IZR (lo _ _)) in *.
  assert (ID : 0 < / (IZR d * L)) by (apply Rinv_0_lt_compat; nra).
  destruct C as [C|C].
  - replace (B2R val - IZR n / IZR d) with (- (IZR n - B2R val * IZR d) * / IZR d) by (field; lra). rewrite Rabs_mult, Rabs_Ropp, (Rabs_pos_eq (/ IZR d)) by (apply Rlt_le, Rinv_0_lt_compat; lra).
    assert (I1 : 0 < / IZR d <= 1) by (split; [apply Rinv_0_lt_compat; lra|rewrite <- Rinv_1; apply Rinv_le; lra]).
    apply Rle_trans with ((/ L + 9 / 10 * / 1000000000) * / IZR d); [apply Rmult_le_compat_r; lra|]. rewrite Rinv_mult by lra. nra.
  - change (IZR (10 ^ 10)) with 10000000000 in C. lra.
Qed.

(** * L_short: the shortest decimal text of a float64 reads back as it *)
From Verif Require Import GoBase GoFloat L_base L_float L_round S_numtext L_formats L_ffun L_sci P_numtext.
From Coq Require Import Reals Lra Psatz.
From Flocq Require Import Core IEEE754.BinarySingleNaN.
Open Scope R_scope.
Local Opaque f_of_dec Z.pow.

(** ** powers of ten *)
Notation P10 e := (powerRZ 10 e).
Lemma P10_pos : forall e, 0 < P10 e. Proof. intros. apply powerRZ_lt. lra. Qed.
Lemma P10_add : forall a b, P10 (a + b) = P10 a * P10 b. Proof. intros. apply powerRZ_add. lra. Qed.
Lemma P10_Z : forall n, (0 <= n)%Z -> P10 n = IZR (10 ^ n).
Proof. intros n H. rewrite <- (Z2Nat.id n) by auto. rewrite <- pow_powerRZ. rewrite <- pow_IZR. reflexivity. Qed.
Lemma ten_pow_P10 : forall e, ten_pow e = P10 e.
Proof.
  intros e. unfold ten_pow. destruct (Z.leb_spec 0 e); [rewrite P10_Z; auto|]. rewrite <- P10_Z by lia. rewrite <- powerRZ_neg'. f_equal. lia.
Qed.
Lemma P10_le : forall a b, (a <= b)%Z -> P10 a <= P10 b.
Proof.
  intros a b H. replace b with (a + (b - a))%Z by lia. rewrite P10_add. pose proof (P10_pos a). rewrite (P10_Z (b - a)) by lia.
  assert (1 <= IZR (10 ^ (b - a))). { apply IZR_le. assert (0 < 10 ^ (b - a))%Z by (apply Z.pow_pos_nonneg; lia). lia. }
  rewrite <- (Rmult_1_r (P10 a)) at 1. apply Rmult_le_compat_l; lra.
Qed.
Definition dv (q e : Z) : R := IZR q * P10 e.
Lemma dec_real_dv : forall q e, dec_real false q e = dv q e.
Proof. intros. unfold dec_real, dv. rewrite ten_pow_P10. lra. Qed.
Lemma dv_shift : forall q e j, (0 <= j)%Z -> dv (q * 10 ^ j) e = dv q (e + j).
Proof. intros. unfold dv. rewrite mult_IZR, <- P10_Z, P10_add by auto. ring. Qed.

(** ** close enough is equal after rounding *)
Lemma RN_close : forall x y, generic_format radix2 fexp64 x -> 0 < x -> Rabs (y - x) <= x * / 2 * / IZR (10 ^ 16) -> RN y = x.
Proof.
  intros x y Fx Px H. set (r := RN y).
  assert (Fr : generic_format radix2 fexp64 r) by (apply generic_format_round; typeclasses eauto).
  assert (N : Rabs (r - y) <= Rabs (x - y)). { apply (round_N_pt radix2 fexp64 (fun t => negb (Z.even t)) y). auto. }
  assert (D : Rabs (r - x) <= x * / IZR (10 ^ 16)).
  { replace (r - x) with ((r - y) + (y - x)) by ring. eapply Rle_trans; [apply Rabs_triang|]. rewrite (Rabs_minus_sym x y) in N. lra. }
  set (e := mag radix2 x : Z).
  assert (EX : bpow radix2 (e - 1) <= x < bpow radix2 e). { pose proof (bpow_mag_le radix2 x ltac:(lra)) as A. pose proof (bpow_mag_gt radix2 x) as B. rewrite Rabs_pos_eq in A, B by lra. split; auto. }
  assert (T : / IZR (10 ^ 16) < bpow radix2 (-53)).
  { change (bpow radix2 (-53)) with (/ IZR (2 ^ 53)). apply Rinv_lt_contravar; [apply Rmult_lt_0_compat; apply IZR_lt; reflexivity|]. apply IZR_lt. reflexivity. }
  assert (TP : 0 < / IZR (10 ^ 16)). { apply Rinv_0_lt_compat. apply IZR_lt. reflexivity. }
  destruct (Req_dec r x) as [E|NE]; [exact E|exfalso].
  assert (U : x * / IZR (10 ^ 16) < bpow radix2 (e - 53)).
  { unfold Zminus. rewrite bpow_plus. apply Rle_lt_trans with (bpow radix2 e * / IZR (10 ^ 16)); [apply Rmult_le_compat_r; lra|].
    apply Rmult_lt_compat_l; auto. apply bpow_gt_0. }
  destruct (Rlt_le_dec x r) as [G|L].
  - assert (S : succ radix2 fexp64 x <= r) by (apply succ_le_lt; auto; typeclasses eauto).
    rewrite succ_eq_pos in S by lra. rewrite ulp_neq_0 in S by lra. unfold cexp in S. fold e in S.
    assert (B : bpow radix2 (e - 53) <= bpow radix2 (fexp64 e)) by (apply bpow_le; unfold SpecFloat.fexp, SpecFloat.emin; lia).
    rewrite Rabs_pos_eq in D by lra. lra.
  - assert (S : r <= pred radix2 fexp64 x) by (apply pred_ge_gt; auto; [typeclasses eauto|lra]).
    rewrite pred_eq_pos in S by lra. unfold pred_pos in S. fold e in S. rewrite Rabs_left1 in D by lra.
    destruct (Req_bool_spec x (bpow radix2 (e - 1))) as [Q|Q].
    + assert (B : bpow radix2 (e - 1 - 53) <= bpow radix2 (fexp64 (e - 1))) by (apply bpow_le; unfold SpecFloat.fexp, SpecFloat.emin; lia).
      assert (U2 : x * / IZR (10 ^ 16) < bpow radix2 (e - 1 - 53)).
      { unfold Zminus at 1. rewrite bpow_plus, <- Q. apply Rmult_lt_compat_l; auto. }
      lra.
    + rewrite ulp_neq_0 in S by lra. unfold cexp in S. fold e in S.
      assert (B : bpow radix2 (e - 53) <= bpow radix2 (fexp64 e)) by (apply bpow_le; unfold SpecFloat.fexp, SpecFloat.emin; lia). lra.
Qed.

(** a decimal reads back as y *)
Lemma back_iff : forall q e y, (0 <= q)%Z -> f_is_finite y = true ->
  (feq (f_of_dec false q e) y = true <-> RN (dv q e) = B2R y).
Proof.
  intros q e y Hq Fy. pose proof (f_of_dec_rounds false q e Hq) as R. rewrite dec_real_dv in R. unfold rounds_to in R.
  destruct (Rlt_bool_spec (Rabs (RN (dv q e))) (bpow radix2 1024)) as [L|L].
  - destruct R as [F V]. rewrite feq_real by auto. rewrite V. tauto.
  - split.
    + rewrite R. intros H. exfalso. unfold feq, fcmp in H. destruct y as [s|s| |s m ee B]; try discriminate; destruct (Rlt_bool _ 0); try discriminate; destruct s; discriminate.
    + intros E. exfalso. rewrite E in L. pose proof (abs_B2R_lt_emax 53 1024 y). lra.
Qed.

(** ** the loop of [shortest] *)
Section Loop.
Variables (x : f64) (num den : Z) (X : R).
Hypothesis Fx : f_is_finite x = true.
Hypothesis HX : B2R x = X.
Hypothesis PX : 0 < X.
Hypothesis Hn : (0 < num)%Z.
Hypothesis Hd : (0 < den)%Z.
Hypothesis HR : X = IZR num / IZR den.
Hypothesis HB1 : (num < den * 10 ^ 400)%Z.
Hypothesis HB2 : (den <= num * 10 ^ 400)%Z.
Let k := dec_exp num den.

Lemma X_format : generic_format radix2 fexp64 X.
Proof. rewrite <- HX. apply generic_format_B2R. Qed.

(** one step: the grid of n digits *)
Lemma step : forall n, (1 <= n)%Z -> let '(a, b) := scale10 num den (n - 1 - k) in
  (0 < a)%Z /\ (0 < b)%Z /\ (b * 10 ^ (n - 1) <= a < b * 10 ^ n)%Z /\ IZR a / IZR b * P10 (k - (n - 1)) = X.
Proof.
  intros n H. pose proof (scaled num den (n - 1) Hn Hd ltac:(lia) HB1 HB2) as S. cbv zeta in S. fold k in S.
  destruct (scale10 num den (n - 1 - k)) as [a b]. destruct S as (A & B & C & D). replace (n - 1 + 1)%Z with n in C by lia.
  repeat split; auto; try lia. rewrite D, HR, Rmult_assoc, <- P10_add. replace (n - 1 - k + (k - (n - 1)))%Z with 0%Z by lia. simpl. lra.
Qed.
Lemma X_ge : P10 k <= X.
Proof.
  pose proof (step 1 ltac:(lia)) as S. destruct (scale10 _ _ _) as [a b]. destruct S as (A & B & [C _] & D). rewrite <- D.
  replace (k - (1 - 1))%Z with k by lia. change (10 ^ (1 - 1))%Z with 1%Z in C. pose proof (P10_pos k).
  assert (1 <= IZR a / IZR b). { apply (Rmult_le_reg_r (IZR b)); [apply IZR_lt; auto|]. unfold Rdiv. rewrite Rmult_assoc, Rinv_l by (apply IZR_neq; lia). rewrite Rmult_1_r, Rmult_1_l. apply IZR_le. lia. }
  rewrite <- (Rmult_1_l (P10 k)) at 1. apply Rmult_le_compat_r; lra.
Qed.

(** no decimal of at most n digits reads back *)
Definition none (n : Z) : Prop := forall q e, (0 < q < 10 ^ n)%Z -> RN (dv q e) <> X.

Lemma RN_X : RN X = X. Proof. apply round_generic; [typeclasses eauto|apply X_format]. Qed.
Lemma between : forall y z, RN y = X -> y <= z <= X \/ X <= z <= y -> RN z = X.
Proof.
  intros y z E [[A B]|[A B]]; apply Rle_antisym.
  - rewrite <- RN_X. apply round_le; auto; typeclasses eauto.
  - rewrite <- E. apply round_le; auto; typeclasses eauto.
  - rewrite <- E. apply round_le; auto; typeclasses eauto.
  - rewrite <- RN_X at 1. apply round_le; auto; typeclasses eauto.
Qed.

Lemma near_cases : forall a b, (0 < a)%Z -> (0 < b)%Z -> round_half_even a b = (a / b)%Z \/ round_half_even a b = (a / b + 1)%Z.
Proof. intros. unfold round_half_even. destruct (_ <? _)%Z; auto. destruct (_ <? _)%Z; auto. destruct (Z.even _); auto. Qed.

Lemma grid_none : forall n, (1 <= n)%Z -> let '(a, b) := scale10 num den (n - 1 - k) in
  RN (dv (a / b) (k - (n - 1))) <> X -> RN (dv (a / b + 1) (k - (n - 1))) <> X -> none n.
Proof.
  intros n H. pose proof (step n H) as S. destruct (scale10 _ _ _) as [a b]. destruct S as (A & B & C & D). intros N1 N2.
  set (g := (k - (n - 1))%Z) in *. pose proof (P10_pos g) as Pg.
  assert (Hb : 0 < IZR b) by (apply IZR_lt; auto).
  assert (LO : dv (a / b) g <= X). { unfold dv. rewrite <- D. apply Rmult_le_compat_r; [lra|]. apply (Rmult_le_reg_r (IZR b)); auto. unfold Rdiv. rewrite Rmult_assoc, Rinv_l, Rmult_1_r by lra. rewrite <- mult_IZR. apply IZR_le. pose proof (Z.mul_div_le a b B). lia. }
  assert (HI : X <= dv (a / b + 1) g). { unfold dv. rewrite <- D. apply Rmult_le_compat_r; [lra|]. apply (Rmult_le_reg_r (IZR b)); auto. unfold Rdiv. rewrite Rmult_assoc, Rinv_l, Rmult_1_r by lra. rewrite <- mult_IZR. apply IZR_le. pose proof (Z.mul_succ_div_gt a b B). lia. }
  assert (G : forall q, RN (dv q g) <> X).
  { intros q E. destruct (Z_le_gt_dec q (a / b)).
    - apply N1. apply (between _ _ E). left. split; auto. unfold dv. apply Rmult_le_compat_r; [lra|]. apply IZR_le. auto.
    - apply N2. apply (between _ _ E). right. split; auto. unfold dv. apply Rmult_le_compat_r; [lra|]. apply IZR_le. lia. }
  intros q e Hq E. destruct (Z_le_gt_dec g e) as [L|L].
  - apply (G (q * 10 ^ (e - g))%Z). rewrite dv_shift by lia. replace (g + (e - g))%Z with e by lia. exact E.
  - apply (G (10 ^ (n - 1))%Z). apply (between _ _ E). left.
    assert (Q : dv (10 ^ (n - 1)) g = P10 k). { unfold dv. rewrite <- P10_Z, <- P10_add by lia. f_equal. unfold g. lia. }
    rewrite Q. split; [|apply X_ge]. unfold dv. apply Rle_trans with (P10 n * P10 e).
    + apply Rmult_le_compat_r; [pose proof (P10_pos e); lra|]. rewrite P10_Z by lia. apply IZR_le. lia.
    + rewrite <- P10_add. apply P10_le. unfold g in L. lia.
Qed.

(** seventeen digits are enough *)
Lemma seventeen : let '(a, b) := scale10 num den (17 - 1 - k) in RN (dv (round_half_even a b) (k - (17 - 1))) = X.
Proof.
  pose proof (step 17 ltac:(lia)) as S. destruct (scale10 _ _ _) as [a b]. destruct S as (A & B & C & D).
  destruct (round_half_even_spec a b ltac:(lia) B) as (Q0 & Q1). set (q := round_half_even a b) in *. clearbody q.
  set (g := (k - (17 - 1))%Z) in *. clearbody g. pose proof (P10_pos g) as Pg. assert (Hb : 0 < IZR b) by (apply IZR_lt; auto).
  apply RN_close; [apply X_format|auto|].
  assert (E : Rabs (IZR q - IZR a / IZR b) <= / 2).
  { assert (A2 : - IZR b <= 2 * (IZR b * IZR q - IZR a) <= IZR b).
    { rewrite <- !mult_IZR, <- minus_IZR, <- mult_IZR, <- opp_IZR. split; apply IZR_le; lia. }
    replace (IZR q - IZR a / IZR b) with ((IZR b * IZR q - IZR a) / IZR b) by (field; lra).
    apply Rabs_le. split; [apply Rle_div_of; lra|apply Rdiv_le_of; lra]. }
  assert (E2 : dv q g - X = (IZR q - IZR a / IZR b) * P10 g) by (unfold dv; rewrite <- D; ring).
  rewrite E2, Rabs_mult, (Rabs_pos_eq (P10 g)) by lra.
  apply Rle_trans with (/ 2 * P10 g); [apply Rmult_le_compat_r; lra|].
  assert (E3 : IZR (10 ^ 16) <= IZR a / IZR b). { apply Rle_div_of; auto. rewrite <- mult_IZR. apply IZR_le. change (17 - 1)%Z with 16%Z in C. lia. }
  assert (T : 0 < IZR (10 ^ 16)) by (apply IZR_lt; reflexivity).
  assert (E4 : P10 g <= X * / IZR (10 ^ 16)).
  { apply (Rmult_le_reg_r (IZR (10 ^ 16))); auto. rewrite Rmult_assoc, Rinv_l, Rmult_1_r by lra. rewrite <- D. rewrite Rmult_comm. apply Rmult_le_compat_r; lra. }
  lra.
Qed.

Lemma shortest_spec : forall f n, (Z.of_nat f = 18 - n)%Z -> (1 <= n <= 17)%Z -> none (n - 1) ->
  let '(q, e) := shortest_from f n num den k x in
  exists r, (1 <= r <= 17)%Z /\ e = (k - (r - 1))%Z /\ (0 < q <= 10 ^ r)%Z /\ RN (dv q e) = X /\ none (r - 1).
Proof.
  induction f as [|f IH]; intros n Hf Hn1 N; [lia|]. cbn [shortest_from].
  pose proof (step n ltac:(lia)) as S. pose proof (grid_none n ltac:(lia)) as GN.
  assert (S17 := seventeen). 
  destruct (scale10 num den (n - 1 - k)) as [a b] eqn:ES. destruct S as (A & B & C & D). cbv zeta.
  pose proof (near_cases a b A B) as NC. set (lo := (a / b)%Z) in *.
  assert (LO : (0 <= lo < 10 ^ n)%Z). { unfold lo. split; [apply Z.div_pos; lia|]. apply Z.div_lt_upper_bound; lia. }
  assert (POS : forall q, (0 <= q)%Z -> RN (dv q (k - (n - 1))) = X -> (0 < q)%Z).
  { intros q Hq E. destruct (Z.eq_dec q 0) as [->|]; [|lia]. exfalso. unfold dv in E. rewrite Rmult_0_l, round_0 in E by typeclasses eauto. lra. }
  destruct (feq (f_of_dec false (round_half_even a b) (k - (n - 1))) x) eqn:B1.
  - apply back_iff in B1; auto; [|lia]. rewrite HX in B1. exists n. split; [lia|]. split; [auto|]. split; [|auto]. split; [apply POS; auto; lia|lia].
  - destruct (feq (f_of_dec false (if (round_half_even a b =? lo)%Z then (lo + 1)%Z else lo) (k - (n - 1))) x) eqn:B2.
    + apply back_iff in B2; auto; [|destruct (_ =? _)%Z; lia]. rewrite HX in B2. exists n. split; [lia|]. split; [auto|]. split; [|auto].
      split; [apply POS; auto; destruct (_ =? _)%Z; lia|destruct (_ =? _)%Z; lia].
    + assert (M1 : RN (dv (round_half_even a b) (k - (n - 1))) <> X). { intros E. rewrite <- HX in E. apply (back_iff _ _ _) in E; auto; [congruence|lia]. }
      assert (M2 : RN (dv (if (round_half_even a b =? lo)%Z then (lo + 1)%Z else lo) (k - (n - 1))) <> X). { intros E. rewrite <- HX in E. apply (back_iff _ _ _) in E; auto; [congruence|destruct (_ =? _)%Z; lia]. }
      assert (n <> 17)%Z. { intros ->. rewrite ES in S17. contradiction. }
      apply IH; [lia|lia|]. replace (n + 1 - 1)%Z with n by lia. apply GN.
      * destruct NC as [E|E]; [rewrite <- E; auto|]. destruct (Z.eqb_spec (round_half_even a b) lo); [lia|auto].
      * destruct NC as [E|E]; [|rewrite <- E; auto]. destruct (Z.eqb_spec (round_half_even a b) lo); [auto|lia].
Qed.
End Loop.

(** ** texts *)
Open Scope Z_scope.
Lemma utoa_facts : forall n, 0 <= n -> Forall dig (utoa n) /\ spelled (utoa n) = n /\ utoa n <> [].
Proof. intros n H. destruct (utoa_spec n H) as (A & B & C). rewrite dec_spelled in B. auto. Qed.
Lemma utoa_len : forall n, 0 < n -> 10 ^ (zlen (utoa n) - 1) <= n < 10 ^ zlen (utoa n).
Proof.
  intros n H. destruct (utoa_numeral n ltac:(lia)) as (A & B & C & D). destruct (nat_numeral_len (utoa n) A B D) as [E|E].
  - exfalso. rewrite E in C. unfold S_formats.value in C. simpl in C. lia.
  - rewrite C in E. exact E.
Qed.
Lemma len_unique : forall n a b, 0 < n -> 1 <= a -> 1 <= b -> 10 ^ (a - 1) <= n < 10 ^ a -> 10 ^ (b - 1) <= n < 10 ^ b -> a = b.
Proof.
  intros n a b Hn Ha Hb A B. destruct (Z_lt_le_dec a b) as [L|L].
  - assert (10 ^ a <= 10 ^ (b - 1)) by (apply Z.pow_le_mono_r; lia). lia.
  - destruct (Z_lt_le_dec b a) as [M|M]; [|lia]. assert (10 ^ b <= 10 ^ (a - 1)) by (apply Z.pow_le_mono_r; lia). lia.
Qed.
Lemma utoa_pos : forall n, 1 <= zlen (utoa n).
Proof. intros n. pose proof (utoa_ne n). destruct (utoa n) as [|c r]; [congruence|]. rewrite zlen_cons. pose proof (zlen_nonneg _ r). lia. Qed.
Lemma utoa_ten : forall n, 0 < n -> zlen (utoa (n * 10)) = zlen (utoa n) + 1.
Proof.
  intros n H. pose proof (utoa_len n H) as A. pose proof (utoa_len (n * 10) ltac:(lia)) as B. pose proof (utoa_pos n). pose proof (utoa_pos (n * 10)).
  symmetry. apply (len_unique (n * 10)); try lia. replace (zlen (utoa n) + 1 - 1) with (zlen (utoa n) - 1 + 1) by lia. rewrite !Z.pow_add_r by lia. change (10 ^ 1) with 10. lia.
Qed.
Lemma strip_spec : forall f q, 0 < q -> exists j, 0 <= j /\ q = strip_zeros f q * 10 ^ j /\ 0 < strip_zeros f q /\ zlen (utoa q) = zlen (utoa (strip_zeros f q)) + j.
Proof.
  induction f as [|f IH]; intros q H; cbn [strip_zeros].
  - exists 0. change (10 ^ 0) with 1. lia.
  - destruct ((q mod 10 =? 0) && negb (q =? 0)) eqn:E.
    + assert (M : q mod 10 = 0) by lia. pose proof (Z.div_mod q 10 ltac:(lia)) as D. destruct (IH (q / 10) ltac:(lia)) as (j & J0 & J1 & J2 & J3).
      exists (j + 1). split; [lia|]. split; [|split; [auto|]].
      * rewrite Z.pow_add_r by lia. change (10 ^ 1) with 10. lia.
      * replace q with (q / 10 * 10) at 1 by lia. rewrite utoa_ten by lia. lia.
    + exists 0. change (10 ^ 0) with 1. lia.
Qed.

Lemma spelled_zeros : forall n l, spelled (repeat 48 n ++ l) = spelled l.
Proof. induction n; intros; cbn [repeat app spelled]; auto. rewrite IHn. lia. Qed.
Lemma dig_zeros : forall n, Forall dig (repeat 48 n).
Proof. intros. apply Forall_forall. intros x H. apply repeat_spec in H. subst. unfold dig. lia. Qed.
Lemma spelled_zeros_r : forall l n, 0 <= n -> spelled (l ++ zeros n) = spelled l * 10 ^ n.
Proof.
  intros. unfold zeros. rewrite spelled_app, zlen_repeat, Z2Nat.id by auto. pose proof (spelled_zeros (Z.to_nat n) []) as Z0. rewrite app_nil_r in Z0. rewrite Z0. cbn [spelled]. lia.
Qed.
Lemma exp_text_part : forall e, exists t, exp_text 101 e = 101 :: t /\ int_numeral t e.
Proof.
  intros e. unfold exp_text. eexists. split; [reflexivity|]. cbn [app].
  destruct (utoa_facts (Z.abs e) ltac:(lia)) as (A & B & C). unfold pad_left.
  set (w := repeat 48 (Z.to_nat (2 - zlen (utoa (Z.abs e)))) ++ utoa (Z.abs e)).
  assert (Sw : spelled w = Z.abs e) by (unfold w; rewrite spelled_zeros; auto).
  assert (Dw : Forall dig w) by (apply Forall_app; split; [apply dig_zeros|auto]).
  assert (Nw : w <> []) by (intros E; apply app_eq_nil in E; tauto).
  destruct (Z.ltb_spec e 0).
  - pose proof (an_int [45] true w st_minus Dw Nw) as I. cbn iota in I. rewrite Sw in I. replace (- Z.abs e) with e in I by lia. exact I.
  - pose proof (an_int [43] false w st_plus Dw Nw) as I. cbn iota in I. rewrite Sw in I. replace (Z.abs e) with e in I by lia. exact I.
Qed.

(** sign put before a text without one *)
Lemma with_sign : forall t m nf x (s : bool), numeral t false m nf x -> (forall r, t <> 43 :: r) -> numeral (if s then 45 :: t else t) s m nf x.
Proof.
  intros t m nf x s H NP. destruct s; [|exact H]. remember false as ng eqn:EN. destruct H as [sg neg ip ft fd et x S D F N E]. destruct S as [| |]; try discriminate.
  - apply (a_numeral [45] true ip ft fd et x); auto. constructor.
  - exfalso. apply (NP (ip ++ ft ++ et)). reflexivity.
Qed.

Definition shows (t : gostr) (q e : Z) : Prop := exists m nf x, numeral t false m nf x /\ (forall r, t <> 43 :: r) /\ dec_value false m nf x = dv q e /\ Z.abs x < 100000 /\ exists i, 0 <= i /\ m = q * 10 ^ i.

Lemma dec_value_dv : forall m nf x, dec_value false m nf x = dv m (x - nf).
Proof. intros. rewrite dec_value_real, dec_real_dv. reflexivity. Qed.
Lemma head_dig : forall c r s, dig c -> c :: r = 43 :: s -> False.
Proof. intros c r s D E. injection E as -> _. unfold dig in D. lia. Qed.

Lemma fixed_shows : forall q k, 0 < q -> shows (fixed_text q k) q (k - (zlen (utoa q) - 1)).
Proof.
  intros q k H. unfold fixed_text. cbv zeta. destruct (utoa_facts q ltac:(lia)) as (A & B & C). set (u := utoa q) in *. set (e := k - (zlen u - 1)).
  destruct (Z.leb_spec 0 e) as [L|L].
  - exists (q * 10 ^ e), 0, 0. split; [|split; [|split; [|split; [lia|]]]].
    + rewrite <- B. rewrite <- spelled_zeros_r by auto. replace (u ++ zeros e) with ([] ++ (u ++ zeros e) ++ [] ++ []) at 1 by (cbn [app]; rewrite app_nil_r; reflexivity).
      change 0 with (zlen (@nil Z)) at 2. replace (spelled (u ++ zeros e)) with (spelled ((u ++ zeros e) ++ [])) by (rewrite app_nil_r; reflexivity).
      apply (a_numeral [] false (u ++ zeros e) [] [] [] 0); try constructor; [apply Forall_app; split; [auto|apply dig_zeros]|]. rewrite app_nil_r. destruct u; [congruence|discriminate].
    + intros r E. destruct u as [|c u]; [congruence|]. cbn [app] in E. apply (head_dig c _ _ ltac:(inversion A; auto) E).
    + rewrite dec_value_dv, dv_shift by auto. f_equal.
    + exists e. auto.
  - unfold place_point. cbv zeta. fold u. destruct (Z.leb_spec (- e) 0); [lia|]. set (p := - e) in *. set (d := pad_left 48 (p + 1) u).
    assert (Dd : Forall dig d) by (unfold d, pad_left; apply Forall_app; split; [apply dig_zeros|auto]).
    assert (Sd : spelled d = q) by (unfold d, pad_left; rewrite spelled_zeros; auto).
    assert (Ld : p + 1 <= zlen d) by (unfold d, pad_left; rewrite zlen_app, zlen_repeat; lia).
    pose proof (ztake_zdrop _ (zlen d - p) d) as SP. set (ip := ztake (zlen d - p) d) in *. set (fd := zdrop (zlen d - p) d) in *.
    assert (Lf : zlen fd = p) by (unfold fd; rewrite zlen_zdrop; lia).
    assert (Li : zlen ip = zlen d - p) by (unfold ip; apply zlen_ztake; lia).
    rewrite <- SP in Dd. apply Forall_app in Dd. destruct Dd as [Di Df].
    exists q, p, 0. split; [|split; [|split; [|split; [lia|]]]].
    + rewrite <- Sd, <- SP, <- Lf. replace (ip ++ [46] ++ fd) with ([] ++ ip ++ (46 :: fd) ++ []) by (cbn [app]; rewrite app_nil_r; reflexivity).
      apply (a_numeral [] false ip (46 :: fd) fd [] 0); auto; try constructor; auto. intros E. rewrite E in SP. rewrite <- SP in Ld. rewrite zlen_nil in Ld. lia.
    + intros r E. destruct ip as [|c ip]; [rewrite zlen_nil in Li; lia|]. cbn [app] in E. apply (head_dig c _ _ ltac:(inversion Di; auto) E).
    + rewrite dec_value_dv. unfold p. f_equal. lia.
    + exists 0. change (10 ^ 0) with 1. lia.
Qed.

Lemma sci_shows : forall q k, 0 < q -> Z.abs k < 100000 -> shows (e_text 101 (utoa q) k) q (k - (zlen (utoa q) - 1)).
Proof.
  intros q k H K. destruct (utoa_facts q ltac:(lia)) as (A & B & C). destruct (exp_text_part k) as (t & ET & IT).
  unfold e_text. destruct (utoa q) as [|c [|c2 r]]; [congruence| |]; rewrite ET.
  - exists q, 0, k. split; [|split; [|split; [|split; [lia|]]]].
    + rewrite <- B. exact (a_numeral [] false [c] [] [] (101 :: t) k st_none A ft_none ltac:(discriminate) (ep_some 101 t k (or_introl eq_refl) IT)).
    + intros s E. apply (head_dig c _ _ ltac:(inversion A; auto) E).
    + rewrite dec_value_dv. f_equal.
    + exists 0. change (10 ^ 0) with 1. lia.
  - exists q, (zlen (c2 :: r)), k. inversion A as [|? ? A1 A2]; subst. split; [|split; [|split; [|split; [lia|]]]].
    + change (c :: c2 :: r) with ([c] ++ c2 :: r). replace (c :: 46 :: (c2 :: r) ++ 101 :: t) with ([] ++ [c] ++ (46 :: c2 :: r) ++ 101 :: t) by reflexivity.
      apply (a_numeral [] false [c] (46 :: c2 :: r) (c2 :: r) (101 :: t) k); auto; try constructor; auto.
    + intros s E. apply (head_dig c _ _ A1 E).
    + rewrite dec_value_dv. f_equal. rewrite (zlen_cons _ c). lia.
    + exists 0. change (10 ^ 0) with 1. lia.
Qed.
Lemma g_shows : forall ep q k, 0 < q -> Z.abs k < 100000 -> shows (g_text ep q k) q (k - (zlen (utoa q) - 1)).
Proof. intros. unfold g_text. destruct (_ || _); [apply sci_shows; auto|apply fixed_shows; auto]. Qed.
Lemma fixed_plain : forall q k, 0 <= q -> Forall (fun c => c <> 101 /\ c <> 69) (fixed_text q k).
Proof.
  intros q k H. destruct (utoa_facts q H) as (A & _ & _). assert (G : forall l, Forall dig l -> Forall (fun c => c <> 101 /\ c <> 69) l) by (intros l Hl; eapply Forall_impl; [|exact Hl]; unfold dig; intros; lia).
  unfold fixed_text. cbv zeta. destruct (Z.leb_spec 0 (k - (zlen (utoa q) - 1))); [apply G, Forall_app; split; [auto|apply dig_zeros]|].
  unfold place_point. cbv zeta. set (d := pad_left _ _ _). assert (Dd : Forall dig d) by (unfold d, pad_left; apply Forall_app; split; [apply dig_zeros|auto]).
  destruct (_ <=? 0); [apply G; auto|]. apply Forall_app. split; [apply G, Forall_ztake; auto|]. apply Forall_app. split; [repeat constructor; lia|].
  apply G. unfold zdrop. apply Forall_forall. intros c I. rewrite Forall_forall in Dd. apply Dd. rewrite <- (firstn_skipn (Z.to_nat (zlen d - - (k - (zlen (utoa q) - 1)))) d). apply in_or_app. auto.
Qed.

(** ** the digits of a float64 *)
Lemma dec_exp_bound : forall num den, -400 <= dec_exp num den <= 400.
Proof.
  assert (U : forall f num den k, k <= dec_exp_up f num den k <= k + Z.of_nat f).
  { induction f as [|f IH]; intros; cbn [dec_exp_up]; [lia|]. destruct (_ <=? _); [specialize (IH num (10 * den) (k + 1)); lia|lia]. }
  assert (W : forall f num den k, k - Z.of_nat f <= dec_exp_down f num den k <= k).
  { induction f as [|f IH]; intros; cbn [dec_exp_down]; [lia|]. destruct (_ <? _); [specialize (IH (10 * num) den (k - 1)); lia|lia]. }
  intros num den. unfold dec_exp. destruct (_ <=? _); [specialize (U 400%nat num den 0)|specialize (W 400%nat num den 0)]; lia.
Qed.

Lemma digits_of : forall x s num den, f_is_finite x = true -> f_ratio x = (s, num, den) -> num <> 0 ->
  let '(q, k) := shortest x in
  0 < q /\ RN (dv q (k - (zlen (utoa q) - 1))) = Rabs (B2R x) /\ Z.abs k < 1000 /\
  (forall q' e' j, 0 < q' < 10 ^ j -> RN (dv q' e') = Rabs (B2R x) -> q < 10 ^ j).
Proof.
  intros x s num den F E N. destruct (f_ratio_real x s num den F E) as (Hn & Hd & HR & HS). destruct (ratio_bounds x s num den F E N) as [B1 B2].
  unfold shortest. rewrite E.
  assert (FA : f_is_finite (fabs x) = true) by (unfold fabs, f_is_finite in *; rewrite is_finite_Babs; auto).
  assert (VA : B2R (fabs x) = Rabs (B2R x)) by (unfold fabs; apply B2R_Babs).
  assert (Hnp : 0 < num) by lia.
  assert (PX : (0 < Rabs (B2R x))%R). { rewrite HR. apply Rdiv_lt_0_compat; apply IZR_lt; lia. }
  pose proof (shortest_spec (fabs x) num den (Rabs (B2R x)) FA VA PX Hnp Hd HR B1 B2 17 1 eq_refl ltac:(lia)) as SP.
  assert (N0 : none (Rabs (B2R x)) (1 - 1)). { intros q e Hq. change (10 ^ (1 - 1)) with 1 in Hq. lia. }
  specialize (SP N0). pose proof (dec_exp_bound num den) as KB. set (k := dec_exp num den) in *. clearbody k.
  destruct (shortest_from 17 1 num den k (fabs x)) as [q e]. destruct SP as (r & R1 & -> & Q1 & Q2 & Q3).
  destruct (strip_spec 400 q ltac:(lia)) as (j & J0 & J1 & J2 & J3).
  assert (V : dv (strip_zeros 400 q) (k - (r - 1) + zlen (utoa q) - 1 - (zlen (utoa (strip_zeros 400 q)) - 1)) = dv q (k - (r - 1))).
  { replace (k - (r - 1) + zlen (utoa q) - 1 - (zlen (utoa (strip_zeros 400 q)) - 1)) with (k - (r - 1) + j) by lia. rewrite <- dv_shift by auto. rewrite <- J1. reflexivity. }
  split; [exact J2|]. split; [rewrite V; exact Q2|]. split.
  - assert (L : zlen (utoa q) <= 18).
    { destruct (Z_le_gt_dec (zlen (utoa q)) 18); auto. exfalso. pose proof (utoa_len q ltac:(lia)) as [L _].
      assert (10 ^ 18 <= 10 ^ (zlen (utoa q) - 1)) by (apply Z.pow_le_mono_r; lia). assert (10 ^ r <= 10 ^ 17) by (apply Z.pow_le_mono_r; lia).
      assert (10 ^ 17 < 10 ^ 18) by reflexivity. lia. }
    pose proof (utoa_pos q). lia.
  - intros q' e' j' Hq' E'. assert (RJ : r <= j').
    { destruct (Z_le_gt_dec r j'); auto. exfalso. apply (Q3 q' e'); auto. assert (10 ^ j' <= 10 ^ (r - 1)) by (apply Z.pow_le_mono_r; lia). lia. }
    assert (LE : strip_zeros 400 q <= q). { assert (1 <= 10 ^ j) by (assert (0 < 10 ^ j) by (apply Z.pow_pos_nonneg; lia); lia). rewrite J1 at 2. nia. }
    assert (RP : 10 ^ r <= 10 ^ j') by (apply Z.pow_le_mono_r; lia).
    destruct (Z.eq_dec q (10 ^ r)) as [QE|QE]; [|lia].
    assert (r = 1).
    { destruct (Z.eq_dec r 1); auto. exfalso. apply (Q3 1 (k - (r - 1) + r)); [split; [lia|]; apply Z.pow_gt_1; lia|].
      rewrite <- dv_shift by lia. rewrite Z.mul_1_l, <- QE. exact Q2. }
    subst r. change (10 ^ 1) with 10 in *. rewrite QE. change (strip_zeros 400 10) with 1. lia.
Qed.

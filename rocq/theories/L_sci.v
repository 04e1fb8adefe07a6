(** * L_sci: printing in scientific notation. *)
From Verif Require Import GoBase GoFloat L_base L_float M_value S_formats L_formats S_display.
From Coq Require Import Reals Lra Lia ZifyBool ZifyNat.
From Flocq Require Import Core IEEE754.BinarySingleNaN.
Local Open Scope Z_scope.

Lemma dec_exp_up_spec : forall f num den k, 0 < den -> den <= num -> num < den * 10 ^ (Z.of_nat f + 1) ->
  exists j, 0 <= j /\ dec_exp_up f num den k = k + j /\ den * 10 ^ j <= num < den * 10 ^ (j + 1).
Proof.
  induction f as [|f IH]; intros num den k Hd H1 H2.
  - exists 0. change (Z.of_nat 0 + 1) with 1 in H2. simpl dec_exp_up. change (10 ^ 0) with 1. change (0 + 1) with 1. lia.
  - cbn [dec_exp_up]. destruct (Z.leb_spec (10 * den) num) as [H|H].
    + destruct (IH num (10 * den) (k + 1)) as (j & J1 & J2 & J3); try lia.
      { replace (Z.of_nat (S f) + 1) with (1 + (Z.of_nat f + 1)) in H2 by lia. rewrite Z.pow_add_r in H2 by lia. change (10 ^ 1) with 10 in H2. lia. }
      exists (j + 1). split; [lia|]. split; [lia|].
      rewrite (Z.pow_add_r 10 j 1) by lia. rewrite (Z.pow_add_r 10 (j + 1) 1) by lia. change (10 ^ 1) with 10. lia.
    + exists 0. change (10 ^ 0) with 1. change (0 + 1) with 1. change (10 ^ 1) with 10. lia.
Qed.
Lemma dec_exp_down_spec : forall f num den k, 0 < num -> num < 10 * den -> den <= num * 10 ^ Z.of_nat f ->
  exists j, 0 <= j /\ dec_exp_down f num den k = k - j /\ den <= num * 10 ^ j < 10 * den.
Proof.
  induction f as [|f IH]; intros num den k Hn H1 H2.
  - exists 0. change (Z.of_nat 0) with 0 in H2. simpl dec_exp_down. change (10 ^ 0) with 1 in *. lia.
  - cbn [dec_exp_down]. destruct (Z.ltb_spec num den) as [H|H].
    + destruct (IH (10 * num) den (k - 1)) as (j & J1 & J2 & J3); try lia.
      { rewrite Nat2Z.inj_succ, Z.pow_succ_r in H2 by lia. lia. }
      exists (j + 1). split; [lia|]. split; [lia|].
      rewrite (Z.pow_add_r 10 j 1) by lia. change (10 ^ 1) with 10. lia.
    + exists 0. change (10 ^ 0) with 1. lia.
Qed.

Lemma ten_pos : forall k, 0 <= k -> 0 < 10 ^ k.
Proof. intros. apply Z.pow_pos_nonneg; lia. Qed.

(** num/den between 10^-400 and 10^400 *)
Lemma scaled : forall num den p, 0 < num -> 0 < den -> 0 <= p ->
  num < den * 10 ^ 400 -> den <= num * 10 ^ 400 ->
  let k := dec_exp num den in
  let '(a, b) := scale10 num den (p - k) in
  0 < a /\ 0 < b /\ b * 10 ^ p <= a < b * 10 ^ (p + 1) /\
  (IZR a / IZR b = IZR num / IZR den * powerRZ 10 (p - k))%R.
Proof.
  intros num den p Hn Hd Hp HB1 HB2 k.
  assert (K : (0 <= k /\ den * 10 ^ k <= num < den * 10 ^ (k + 1)) \/
              (k <= 0 /\ den <= num * 10 ^ (- k) < 10 * den)).
  { unfold k, dec_exp. destruct (Z.leb_spec den num) as [H|H].
    - destruct (dec_exp_up_spec 400 num den 0) as (j & J1 & J2 & J3); auto.
      { change (Z.of_nat 400) with 400. rewrite Z.pow_add_r by lia. pose proof (ten_pos 400). change (10 ^ 1) with 10. nia. }
      left. rewrite J2. rewrite Z.add_0_l. auto.
    - destruct (dec_exp_down_spec 400 num den 0) as (j & J1 & J2 & J3); auto; try lia.
      right. rewrite J2. replace (- (0 - j)) with j by lia. split; [lia|auto]. }
  clearbody k. clear HB1 HB2.
  assert (PR : forall n, 0 <= n -> (powerRZ 10 n = IZR (10 ^ n))%R).
  { intros n H. rewrite <- (Z2Nat.id n) by auto. rewrite <- pow_powerRZ. rewrite <- pow_IZR. reflexivity. }
  unfold scale10. destruct (Z.leb_spec 0 (p - k)) as [H|H].
  - assert (P0 : 0 < 10 ^ (p - k)) by (apply ten_pos; auto).
    split; [nia|]. split; auto. split.
    + destruct K as [(K0 & K1)|(K0 & K1)].
      * replace (10 ^ p) with (10 ^ k * 10 ^ (p - k)) by (rewrite <- Z.pow_add_r by lia; f_equal; lia).
        replace (10 ^ (p + 1)) with (10 ^ (k + 1) * 10 ^ (p - k)) by (rewrite <- Z.pow_add_r by lia; f_equal; lia). nia.
      * replace (10 ^ (p - k)) with (10 ^ (- k) * 10 ^ p) by (rewrite <- Z.pow_add_r by lia; f_equal; lia).
        rewrite (Z.pow_add_r 10 p 1) by lia. change (10 ^ 1) with 10. pose proof (ten_pos p Hp). nia.
    + rewrite PR by auto. rewrite mult_IZR. field. apply IZR_neq. lia.
  - assert (P0 : 0 < 10 ^ (- (p - k))) by (apply ten_pos; lia).
    split; [auto|]. split; [nia|]. split.
    + destruct K as [(K0 & K1)|(K0 & K1)]; [|lia].
      assert (E1 : 10 ^ k = 10 ^ (- (p - k)) * 10 ^ p) by (rewrite <- Z.pow_add_r by lia; f_equal; lia).
      rewrite (Z.pow_add_r 10 p 1) by lia. rewrite (Z.pow_add_r 10 k 1) in K1 by lia. change (10 ^ 1) with 10 in *. nia.
    + assert (PN : powerRZ 10 (p - k) = (/ IZR (10 ^ (- (p - k))))%R).
      { rewrite <- PR by lia. rewrite <- powerRZ_neg'. f_equal. lia. }
      rewrite PN.
      rewrite mult_IZR. field. split; apply IZR_neq; lia.
Qed.

Lemma sig_digits_spec : forall num den p, 0 < num -> 0 < den -> 0 <= p ->
  num < den * 10 ^ 400 -> den <= num * 10 ^ 400 ->
  let '(q, k) := sig_digits (p + 1) num den in
  10 ^ p <= q < 10 ^ (p + 1) /\
  (Rabs (IZR q - IZR num / IZR den * powerRZ 10 (p - k)) <= / 2)%R /\
  (0 < IZR num / IZR den * powerRZ 10 (p - k) < IZR (10 ^ p) ->
     Rabs (IZR q - IZR num / IZR den * powerRZ 10 (p - k)) <= / 20)%R.
Proof.
  intros num den p Hn Hd Hp HB1 HB2. pose proof (scaled num den p Hn Hd Hp HB1 HB2) as S. cbv zeta in S.
  unfold sig_digits. set (k := dec_exp num den) in *. clearbody k.
  replace (p + 1 - 1 - k) with (p - k) by lia. destruct (scale10 num den (p - k)) as [a b].
  destruct S as (Sa & Sb & SB & SR). cbv zeta.
  destruct (round_half_even_spec a b ltac:(lia) Sb) as (Q0 & Q1).
  set (q := round_half_even a b) in *. clearbody q.
  assert (Q2 : 10 ^ p <= q <= 10 ^ (p + 1)).
  { split.
    - destruct (Z_le_dec (10 ^ p) q); auto. exfalso. assert (q + 1 <= 10 ^ p) by lia. nia.
    - destruct (Z_le_dec q (10 ^ (p + 1))); auto. exfalso. assert (10 ^ (p + 1) + 1 <= q) by lia. nia. }
  assert (Hbr : (0 < IZR b)%R) by (apply IZR_lt; auto).
  assert (A : (Rabs (IZR q - IZR a / IZR b) <= / 2)%R).
  { assert (A : (- IZR b <= 2 * (IZR b * IZR q - IZR a) <= IZR b)%R).
    { rewrite <- !mult_IZR, <- minus_IZR, <- mult_IZR, <- opp_IZR. split; apply IZR_le; lia. }
    replace (IZR q - IZR a / IZR b)%R with ((IZR b * IZR q - IZR a) / IZR b)%R by (field; lra).
    apply Rabs_le. split; [apply Rle_div_of; lra|apply Rdiv_le_of; lra]. }
  rewrite SR in A.
  destruct (Z.eqb_spec q (10 ^ (p + 1))) as [E|N].
  - replace (p + 1 - 1) with p by lia. split.
    + split; [lia|]. apply Z.pow_lt_mono_r; lia.
    + assert (T : (powerRZ 10 (p - (k + 1)) = powerRZ 10 (p - k) / 10)%R).
      { replace (p - (k + 1)) with (p - k + -1) by lia. rewrite powerRZ_add by lra. simpl. lra. }
      rewrite T. rewrite E in A. rewrite Z.pow_add_r in A by lia. change (10 ^ 1) with 10 in A. rewrite mult_IZR in A.
      apply Rabs_le_inv in A. split; [|intros _]; apply Rabs_le; lra.
  - split; [lia|]. split; auto. intros [_ L]. exfalso. rewrite <- SR in L.
    assert (IZR (10 ^ p) <= IZR a / IZR b)%R; [|lra].
    apply Rle_div_of; auto. rewrite <- mult_IZR. apply IZR_le. lia.
Qed.

Lemma pad2_exp : forall k, let e := pad_left 48 2 (utoa (Z.abs k)) in
  Forall is_dig e /\ value e = Z.abs k /\ 2 <= zlen e /\ (forall r, e = 48 :: r -> zlen r = 1).
Proof.
  intros k. cbv zeta. destruct (utoa_numeral (Z.abs k) ltac:(lia)) as (A1 & A2 & A3 & A4).
  unfold pad_left. set (u := utoa (Z.abs k)) in *.
  assert (1 <= zlen u) by (destruct u; [congruence|rewrite zlen_cons; pose proof (zlen_nonneg _ u); lia]).
  split; [apply Forall_app; split; auto; apply Forall_forall; intros x Hx; apply repeat_spec in Hx; subst; unfold is_dig; lia|].
  split; [unfold value; rewrite value_zeros, Z.mul_0_l; exact A3|].
  split; [rewrite zlen_app, zlen_repeat; lia|].
  intros r E. destruct (Z_le_dec 2 (zlen u)).
  - replace (Z.to_nat (2 - zlen u)) with 0%nat in E by lia. simpl in E. apply A4 in E as E2. subst r.
    rewrite E in l. rewrite zlen_cons, zlen_nil in l. lia.
  - replace (Z.to_nat (2 - zlen u)) with 1%nat in E by lia. simpl in E. injection E as <-. lia.
Qed.

(** a finite non-zero float64 is between 10^-400 and 10^400 *)
Lemma ratio_bounds : forall x s n d, f_is_finite x = true -> f_ratio x = (s, n, d) -> n <> 0 ->
  n < d * 10 ^ 400 /\ d <= n * 10 ^ 400.
Proof.
  intros x s n d Hf E Hn. destruct x as [sx|sx| |sx m e He]; try discriminate; [injection E as <- <- <-; lia|].
  simpl in E. pose proof He as He2. unfold SpecFloat.bounded, SpecFloat.canonical_mantissa in He2.
  apply andb_prop in He2. destruct He2 as [H1 H2]. apply Zeq_bool_eq in H1. apply Zle_bool_imp_le in H2.
  unfold SpecFloat.fexp, SpecFloat.emin in H1.
  assert (Em : -1074 <= e <= 971) by lia.
  assert (Hm : Z.pos m < 2 ^ 53).
  { assert (D : Z.pos (SpecFloat.digits2_pos m) <= 53) by lia.
    rewrite Digits.Zpos_digits2_pos in D. apply (Digits.Zpower_gt_Zdigits radix2 53 (Z.pos m)) in D. simpl Z.abs in D. exact D. }
  assert (P1 : 2 ^ 1024 < 10 ^ 400) by (vm_compute; reflexivity).
  assert (P2 : 2 ^ 1074 < 10 ^ 400) by (vm_compute; reflexivity).
  destruct (Z.leb_spec 0 e); injection E as <- <- <-.
  - assert (2 ^ e <= 2 ^ 971) by (apply Z.pow_le_mono_r; lia).
    assert (0 < 2 ^ e) by (apply Z.pow_pos_nonneg; lia).
    assert (Q : 2 ^ 53 * 2 ^ 971 = 2 ^ 1024) by (rewrite <- Z.pow_add_r by lia; reflexivity).
    split; [|pose proof (ten_pos 400); nia]. nia.
  - assert (2 ^ (- e) <= 2 ^ 1074) by (apply Z.pow_le_mono_r; lia).
    assert (0 < 2 ^ (- e)) by (apply Z.pow_pos_nonneg; lia).
    assert (Q : 2 ^ 53 < 2 ^ 1024) by (apply Z.pow_lt_mono_r; lia).
    split; nia.
Qed.

Lemma format_e_sci : forall p x, 1 <= p -> f_is_finite x = true ->
  exists k, shows_sci p (B2R x) (Bsign x) k (format_e 69 p x).
Proof.
  intros p x Hp Hf. unfold format_e. rewrite Hf. destruct (f_ratio x) as [[s n] d] eqn:E.
  destruct (f_ratio_real x s n d Hf E) as (Hn & Hd & Hr & ->).
  assert (Hdr : (0 < IZR d)%R) by (apply IZR_lt; auto).
  destruct (Z.eqb_spec n 0) as [->|N].
  - exists 0. assert (X0 : B2R x = 0%R).
    { destruct (Req_dec (B2R x) 0); auto. apply Rabs_no_R0 in H. rewrite Hr in H. exfalso. apply H. unfold Rdiv. lra. }
    destruct (pad2_exp 0) as (P1 & P2 & P3 & P4).
    exists 48, (zeros p), (pad_left 48 2 (utoa (Z.abs 0))).
    assert (FZ : Forall is_dig (zeros p)).
    { unfold zeros. apply Forall_forall. intros y Hy. apply repeat_spec in Hy. subst. unfold is_dig. lia. }
    assert (TZ : e_text 69 (zeros (p + 1)) 0 = [48; 46] ++ zeros p ++ [69; 43] ++ pad_left 48 2 (utoa (Z.abs 0))).
    { unfold zeros. replace (Z.to_nat (p + 1)) with (S (Z.to_nat p)) by lia. cbn [repeat].
      replace (Z.to_nat p) with (S (Z.to_nat (p - 1))) by lia. reflexivity. }
    rewrite TZ. split; [destruct (Bsign x); reflexivity|].
    split; [unfold is_dig; lia|]. split; auto. split; [unfold zeros; rewrite zlen_repeat; lia|].
    split; auto. split; auto. split; auto. split; auto. split; auto. split; [congruence|].
    assert (V : value (48 :: zeros p) = 0).
    { unfold value. simpl. unfold zeros. rewrite <- (app_nil_r (repeat 48 _)), value_zeros. reflexivity. }
    rewrite V, X0, Rabs_R0. split; [|intros [K _]; lra]. replace (0 - 0 * powerRZ 10 (p - 0))%R with 0%R by lra. rewrite Rabs_R0. lra.
  - destruct (ratio_bounds x _ n d Hf E N) as [B1 B2].
    pose proof (sig_digits_spec n d p ltac:(lia) Hd ltac:(lia) B1 B2) as S.
    destruct (sig_digits (p + 1) n d) as [q k]. destruct S as [S1 S2]. exists k.
    pose proof (ten_pos p ltac:(lia)) as TP.
    destruct (utoa_numeral q ltac:(lia)) as (A1 & A2 & A3 & A4).
    assert (L : zlen (utoa q) = p + 1).
    { destruct (nat_numeral_len _ A1 A2 A4) as [Q|Q].
      - rewrite Q in A3. unfold value in A3. simpl in A3. lia.
      - rewrite A3 in Q. pose proof (zlen_nonneg _ (utoa q)).
        assert (zlen (utoa q) <= p + 1).
        { destruct (Z_le_dec (zlen (utoa q)) (p + 1)); auto. exfalso.
          assert (10 ^ (p + 1) <= 10 ^ (zlen (utoa q) - 1)) by (apply Z.pow_le_mono_r; lia). lia. }
        destruct (Z_le_dec (p + 1) (zlen (utoa q))); [lia|]. exfalso.
        assert (10 ^ zlen (utoa q) <= 10 ^ p) by (apply Z.pow_le_mono_r; lia). lia. }
    destruct (utoa q) as [|c fp] eqn:EU; [congruence|]. rewrite zlen_cons in L.
    destruct fp as [|c1 fp]; [rewrite zlen_nil in L; lia|].
    destruct (pad2_exp k) as (P1 & P2 & P3 & P4).
    exists c, (c1 :: fp), (pad_left 48 2 (utoa (Z.abs k))).
    inversion A2 as [|? ? D1 D2]; subst.
    split; [unfold e_text, exp_text; destruct (Bsign x); reflexivity|].
    split; auto. split; auto. split; [lia|]. split; auto. split; auto. split; auto. split; auto.
    assert (XN : (Rabs (B2R x) <> 0)%R).
    { rewrite Hr. apply Rgt_not_eq. apply Rdiv_lt_0_compat; auto. apply IZR_lt. lia. }
    split; [intros X0; rewrite X0, Rabs_R0 in XN; lra|].
    split.
    { intros _ ->. assert (c1 :: fp = []) by (apply A4; auto). discriminate. }
    rewrite Hr. exact S2.
Qed.

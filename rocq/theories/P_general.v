(** * P_general: numbers under the General format *)
From Verif Require Import GoBase GoFloat L_base L_float L_round S_numtext S_general GoUnicode GoTime M_value M_dates M_numbers M_fmt M_formats M_simple P_formats L_formats L_ffun L_sci P_numtext L_short.
From Coq Require Import Reals Lra Psatz.
From Flocq Require Import Core IEEE754.BinarySingleNaN.
Open Scope Z_scope.
Local Opaque f_of_dec Z.pow.

Lemma dec_value_neg : forall neg m nf x, dec_value neg m nf x = ((if neg then -1 else 1) * dec_value false m nf x)%R.
Proof. intros. unfold dec_value. destruct neg; lra. Qed.

(** a value whose rounding is |v| is read as v when given its sign *)
Lemma near_signed : forall v s y, f_is_finite v = true -> Bsign v = s -> RN y = Rabs (B2R v) -> is_near64 v s ((if s then -1 else 1) * y).
Proof.
  intros v s y F S E. unfold is_near64, fits64. change near64 with RN.
  assert (R : RN ((if s then -1 else 1) * y) = B2R v).
  { destruct s.
    - replace (-1 * y)%R with (- y)%R by lra. rewrite round_NE_opp, E. destruct v as [b|b| |b m e B]; try discriminate; simpl in S; subst b; simpl; [rewrite Rabs_R0; lra|].
      rewrite Rabs_left1; [lra|]. apply F2R_le_0. simpl. lia.
    - rewrite Rmult_1_l, E. destruct v as [b|b| |b m e B]; try discriminate; simpl in S; subst b; simpl; [apply Rabs_R0|]. apply Rabs_pos_eq. apply F2R_ge_0. simpl. lia. }
  split; [exact S|]. rewrite R. split; [auto|]. intros C. exfalso. apply C. apply abs_B2R_lt_emax.
Qed.

Lemma zero_text : forall v s den, f_is_finite v = true -> f_ratio v = (s, 0, den) -> B2R v = 0%R /\ Bsign v = s.
Proof.
  intros v s den F E. destruct (f_ratio_real v s 0 den F E) as (_ & D & R & S). split; auto. rewrite Rdiv_0_l in R || (unfold Rdiv in R; rewrite Rmult_0_l in R). apply Rabs_eq_R0. exact R.
Qed.
Lemma zero_numeral : numeral [48] false 0 0 0.
Proof. exact (a_numeral [] false [48] [] [] [] 0 st_none ltac:(repeat constructor; unfold dig; lia) ft_none ltac:(discriminate) ep_none). Qed.

Lemma shortest_of_shows : forall v s num den t q e, f_is_finite v = true -> f_ratio v = (s, num, den) ->
  shows t q e -> RN (dv q e) = Rabs (B2R v) -> (forall q' e' j, 0 < q' < 10 ^ j -> RN (dv q' e') = Rabs (B2R v) -> q < 10 ^ j) ->
  shortest_text v (if s then 45 :: t else t).
Proof.
  intros v s num den t q e F E (m & nf & x & N & NP & V & X & i & I0 & I1) R M. destruct (f_ratio_real v s num den F E) as (_ & _ & _ & S).
  exists s, m, nf, x. split; [apply with_sign; auto|]. split; [auto|]. split.
  - rewrite dec_value_neg. apply near_signed; auto. rewrite V. exact R.
  - exists q, i. split; [auto|]. split; [auto|]. intros q' e' j Hq E'. apply (M q' e' j); auto. rewrite <- E'. rewrite dec_value_dv, Z.sub_0_r. reflexivity.
Qed.
Lemma shortest_zero : forall v s den, f_is_finite v = true -> f_ratio v = (s, 0, den) -> shortest_text v (if s then 45 :: [48] else [48]).
Proof.
  intros v s den F E. destruct (zero_text v s den F E) as [Z0 S]. exists s, 0, 0, 0. split; [apply with_sign; [apply zero_numeral|discriminate]|]. split; [lia|]. split.
  - rewrite dec_value_neg. apply near_signed; auto. rewrite Z0, Rabs_R0, dec_value_dv. unfold dv. rewrite Rmult_0_l. apply round_0. typeclasses eauto.
  - exists 0, 0. split; [lia|]. split; [reflexivity|]. intros q' e' j Hq _. lia.
Qed.

Lemma f_text_shortest : forall v, f_is_finite v = true -> shortest_text v (format_f_shortest v) /\ plain (format_f_shortest v).
Proof.
  intros v F. unfold format_f_shortest. rewrite F. destruct (f_ratio v) as [[s num] den] eqn:E. cbv zeta. destruct (Z.eqb_spec num 0) as [->|N].
  - split; [apply (shortest_zero v s den); auto|]. destruct s; repeat constructor; lia.
  - pose proof (digits_of v s num den F E N) as D. destruct (shortest v) as [q k]. destruct D as (Q & R & _ & M).
    split; [apply (shortest_of_shows v s num den _ q _ F E (fixed_shows q k Q)); auto|].
    pose proof (fixed_plain q k ltac:(lia)) as P. destruct s; [constructor; [lia|exact P]|exact P].
Qed.
Lemma g_text_shortest : forall v, f_is_finite v = true -> shortest_text v (format_g_shortest v).
Proof.
  intros v F. unfold format_g_shortest. rewrite F. destruct (f_ratio v) as [[s num] den] eqn:E. cbv zeta. destruct (Z.eqb_spec num 0) as [->|N].
  - apply (shortest_zero v s den); auto.
  - pose proof (digits_of v s num den F E N) as D. destruct (shortest v) as [q k]. destruct D as (Q & R & K & M).
    apply (shortest_of_shows v s num den _ q _ F E (g_shows 6 q k Q ltac:(lia))); auto.
Qed.

Lemma six_text : forall v, f_is_finite v = true -> six_digit_text v (format_g 6 v).
Proof.
  intros v F. unfold format_g. rewrite F. destruct (f_ratio v) as [[s num] den] eqn:E. cbv zeta. destruct (Z.eqb_spec num 0) as [->|N].
  - destruct (zero_text v s den F E) as [Z0 S]. exists s, 0, 0, 0. split; [apply with_sign; [apply zero_numeral|discriminate]|]. split; [lia|]. split; [exists 0, 0; repeat split; lia|]. auto.
  - destruct (f_ratio_real v s num den F E) as (Hn & Hd & HR & HS). destruct (ratio_bounds v s num den F E N) as [B1 B2].
    pose proof (sig_digits_spec num den 5 ltac:(lia) Hd ltac:(lia) B1 B2) as SD. change (5 + 1) with 6 in SD.
    assert (KB : forall q k, sig_digits 6 num den = (q, k) -> Z.abs k < 1000).
    { intros q k SE. unfold sig_digits in SE. pose proof (dec_exp_bound num den). cbv zeta in SE. destruct (scale10 _ _ _) as [a b]. destruct (_ =? _); injection SE as _ <-; lia. }
    destruct (sig_digits 6 num den) as [q0 k] eqn:SE. specialize (KB q0 k eq_refl). destruct SD as (Q & D & _).
    assert (Q0 : 0 < q0) by (assert (0 < 10 ^ 5) by reflexivity; lia). assert (L0 : zlen (utoa q0) = 6).
    { apply (len_unique q0); try lia; [apply utoa_pos|apply utoa_len; auto]. }
    destruct (strip_spec 400 q0 Q0) as (j & J0 & J1 & J2 & J3). set (q := strip_zeros 400 q0) in *.
    match goal with |- context[g_text ?ep q k] => destruct (g_shows ep q k J2 ltac:(lia)) as (m & nf & x & NM & NP & V & X & i & I0 & I1) end.
    assert (VE : dec_value false m nf x = dv q0 (k - 5)).
    { rewrite V. rewrite J1, dv_shift by auto. f_equal. lia. }
    exists s, m, nf, x. split; [apply with_sign; auto|]. split; [auto|]. split.
    + exists q, i. split; [auto|]. split; [|auto]. assert (1 <= 10 ^ j) by (assert (0 < 10 ^ j) by (apply Z.pow_pos_nonneg; lia); lia). split; [lia|]. nia.
    + right. exists k. rewrite (dec_value_neg s m nf x), VE. rewrite !dec_value_dv, !Z.sub_0_r. split.
      * pose proof (P10_pos (k - 5)) as PP. assert (PK : P10 k = (P10 (k - 5) * IZR (10 ^ 5))%R) by (rewrite <- (P10_Z 5), <- P10_add by lia; f_equal; lia).
        unfold dv. rewrite PK. assert (G1 : (IZR (10 ^ 5) <= IZR q0)%R) by (apply IZR_le; lia). assert (G2 : (IZR q0 < IZR (10 ^ 6))%R) by (apply IZR_lt; lia).
        change (10 ^ 6) with (10 * 10 ^ 5) in G2. rewrite mult_IZR in G2. clear - PP G1 G2. split; nra.
      * assert (BV : B2R v = ((if s then -1 else 1) * Rabs (B2R v))%R).
        { destruct v as [b|b| |b mm e B]; try discriminate; simpl in HS; subst s; destruct b; simpl; rewrite ?Rabs_R0; try lra.
          - rewrite Rabs_left1; [lra|]. apply F2R_le_0. simpl. lia.
          - rewrite Rabs_pos_eq; [lra|]. apply F2R_ge_0. simpl. lia. }
        rewrite BV, HR. unfold dv. replace ((if s then -1 else 1) * (IZR q0 * P10 (k - 5)) - (if s then -1 else 1) * (IZR num / IZR den))%R
          with ((if s then -1 else 1) * ((IZR q0 - IZR num / IZR den * P10 (5 - k)) * P10 (k - 5)))%R.
        2: { assert (ONE : (P10 (5 - k) * P10 (k - 5) = 1)%R) by (rewrite <- P10_add; replace (5 - k + (k - 5)) with 0 by lia; reflexivity).
             replace ((IZR q0 - IZR num / IZR den * P10 (5 - k)) * P10 (k - 5))%R with (IZR q0 * P10 (k - 5) - IZR num / IZR den * (P10 (5 - k) * P10 (k - 5)))%R by ring. rewrite ONE. ring. }
        rewrite !Rabs_mult. replace (Rabs (if s then -1 else 1)) with 1%R by (destruct s; [rewrite Rabs_left; lra|rewrite Rabs_pos_eq; lra]).
        pose proof (P10_pos (k - 5)). rewrite (Rabs_pos_eq (P10 (k - 5))) by lra. rewrite Rmult_1_l. apply Rle_trans with (/ 2 * P10 (k - 5))%R; [apply Rmult_le_compat_r; lra|lra].
Qed.

(** C110.  A float64 under General (or @, or no format) *)
Theorem C110_general : forall x id v, In id [0; 49] -> f_is_finite v = true ->
  exists p t g, shortest_text v p /\ plain p /\ six_digit_text v t /\ shortest_text v g /\
    fx_apply x id (GF64 v) = Ok (if (zlen p <=? 11) || ((zlen p =? 12) && flt v f_zero) then p else if zlen t <=? 11 then t else g, true).
Proof.
  intros x id v I F. destruct (f_text_shortest v F) as [A B]. exists (format_f_shortest v), (format_g 6 v), (format_g_shortest v).
  split; [auto|]. split; [auto|]. split; [apply six_text; auto|]. split; [apply g_text_shortest; auto|].
  destruct I as [<-|[<-|[]]]; reflexivity.
Qed.
Theorem C110_general_special : forall x id v, In id [0; 49] -> f_is_finite v = false -> fx_apply x id (GF64 v) = Ok (not_a_number_text v, true).
Proof. intros x id v I F. assert (E : fx_apply x id (GF64 v) = Ok (ident_text (GF64 v), true)) by (destruct I as [<-|[<-|[]]]; reflexivity). rewrite E. destruct v as [|[|]| |]; try discriminate; reflexivity. Qed.

(** C110.  Such a text read again *)
Theorem C110_read_back : forall v t z0, f_is_finite v = true -> shortest_text v t -> scan_one t (DF64 z0) = (DF64 v, None).
Proof.
  intros v t z0 F (neg & m & nf & x & N & X & NR & _). destruct (C109_scan_float t neg m nf x z0 N (or_introl X)) as (a & NA & A1 & _).
  destruct NR as (S & R1 & R2). assert (FT : fits64 (dec_value neg m nf x)).
  { destruct (Rlt_le_dec (Rabs (near64 (dec_value neg m nf x))) (bpow radix2 1024)); [auto|]. rewrite R2 in F by (unfold fits64; lra). discriminate. }
  rewrite (A1 FT). destruct NA as (S2 & Q1 & _). destruct (Q1 FT) as [F2 V2]. destruct (R1 FT) as [_ V1]. do 2 f_equal. apply B2R_Bsign_inj; auto; congruence.
Qed.
Theorem C110_general_back : forall x id v s z0, In id [0; 49] -> f_is_finite v = true -> fx_apply x id (GF64 v) = Ok (s, true) ->
  scan_one s (DF64 z0) = (DF64 v, None) \/ (exists p, shortest_text v p /\ plain p /\ 12 <= zlen p) /\ zlen s <= 11 /\ six_digit_text v s.
Proof.
  intros x id v s z0 I F H. destruct (C110_general x id v I F) as (p & t & g & P1 & P2 & T & G & E).
  assert (E' : fx_apply x id (GF64 v) = Ok (ident_text (GF64 v), true)) by (destruct I as [<-|[<-|[]]]; reflexivity).
  rewrite E' in H. injection H as H. subst s. unfold ident_text. cbv zeta.
  destruct ((zlen (format_f_shortest v) <=? 11) || _) eqn:L; [left; apply C110_read_back; auto; apply f_text_shortest; auto|].
  destruct (zlen (format_g 6 v) <=? 11) eqn:L2; [right; split; [exists (format_f_shortest v); destruct (f_text_shortest v F); split; [auto|]; split; [auto|lia]|]; split; [lia|apply six_text; auto]|].
  left. apply C110_read_back; auto. apply (g_text_shortest v F).
Qed.
(** fmt's %v, which every unformatted number goes through *)
Theorem C110_sprint : forall v z0, f_is_finite v = true -> shortest_text v (sprint (GF64 v)) /\ scan_one (sprint (GF64 v)) (DF64 z0) = (DF64 v, None).
Proof. intros v z0 F. pose proof (g_text_shortest v F) as G. split; [exact G|]. apply C110_read_back; auto. Qed.

(** Non-vacuity *)
Local Transparent f_of_dec Z.pow.
Example ex_C110_short : fx_apply new_formatter 0 (GF64 (fl (bs "0.1"))) = Ok (bs "0.1", true) /\
  fx_apply new_formatter 0 (GF64 (fl (bs "-1234567.891"))) = Ok (bs "-1234567.891", true).
Proof. split; vm_compute; reflexivity. Qed.
Example ex_C110_six : fx_apply new_formatter 0 (GF64 (fl (bs "0.3333333333333333"))) = Ok (bs "0.333333", true) /\
  fx_apply new_formatter 0 (GF64 (fl (bs "1e20"))) = Ok (bs "1e+20", true).
Proof. split; vm_compute; reflexivity. Qed.
Example ex_C110_long : fx_apply new_formatter 0 (GF64 (fl (bs "1.23456789e-300"))) = Ok (bs "1.23456789e-300", true).
Proof. vm_compute. reflexivity. Qed.

Print Assumptions C110_general.
Print Assumptions C110_general_special.
Print Assumptions C110_read_back.
Print Assumptions C110_general_back.
Print Assumptions C110_sprint.
